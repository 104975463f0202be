(** Lemmas about the scoring calls of noisy relations. *)
From stdpp Require Import gmap strings sorting.
From Coq Require Import ZArith Reals Lra Lia.
From Verif Require Import M_base M_math M_crp M_domain M_dist M_relation M_noisy M_irm M_logp M_rel_logp M_noisy_logp
  S_math S_crp S_crp_state S_relation S_dist S_irm S_logp S_latent S_score S_rel_logp
  P_base P_math P_sum P_crp P_domain P_relation P_dist P_reached P_irm_gibbs P_score P_rel_logp T_score T_rel_logp.
Local Open Scope R_scope.

Lemma base_value_Ok {V} (b : base_view V) items bv : get_base_value b items = Ok bv <->
  (bv_arity b <= length items)%nat /\ bv_data b !! take (bv_arity b) items = Some bv.
Proof.
  unfold get_base_value, get_base_items, base_get_value. case_bool_decide as Hl; cbn [obind]; [|by split; [done|intros [? _]]].
  case_bool_decide as Hd; cbn [assert_ obind].
  - apply elem_of_dom in Hd as [x Hx]. rewrite Hx. cbn. split; [by intros [= ->]|by intros [_ [= ->]]].
  - split; [done|]. intros [_ Hx]. by apply not_elem_of_dom in Hd; rewrite Hx in Hd.
Qed.

Section Increase.
Context {V : Type} {D : Dist V} (L : rlawful D).
Lemma rel_logp_score_increase lg W A (rel : relation D) items v z r W' rel' r' r1 lp r2 : is_lgamma lg ->
  world_holds W A -> positive W -> rel_holds L A rel -> scores_predictively D -> fresh_fixed rel -> r_doms rel <> [] ->
  block_of A (r_doms rel) items = Some z ->
  rel_logp D W rel items v r1 = Ok (lp, r2) -> rel_incorporate D W rel items v r = Ok (W', rel', r') ->
  lp = Some (rel_logp_score D rel' - rel_logp_score D rel).
Proof.
  intros Hlg HW Hp Hrel Hsp Hfr Hne Hz Hlp Hi.
  destruct (rel_incorporate_score L lg W A rel items v r W' rel' r' Hlg HW Hp Hrel Hsp Hfr Hi) as (A' & p & q & _ & Hs & _ & Hq & Hbl & _ & ->).
  pose proof (C72_known_entities D W A rel items v r1 lp r2 z HW Hp (rh_doms _ _ _ Hrel) Hne Hfr Hz Hlp) as Hb.
  destruct (proj1 (block_of_is_Some A (r_doms rel) items) (ex_intro _ z Hz)) as [Hl Hk].
  assert (Forall (fun de => is_Some (seat A de.1 de.2)) (zip (r_doms rel) items)) as HF.
  { apply Forall_forall. intros [d e] Hde. by apply Hk. }
  destruct (seats_all_known _ _ _ _ _ Hs HF) as [_ ->].
  unfold S_score.block_lik in Hbl. unfold block_of in Hz. rewrite decide_True in Hz by done. rewrite Hz in Hbl. cbn [mbind option_bind] in Hbl.
  unfold block_lik in Hb. destruct (d_logp _ _ _) as [x| | | | |]; try done. injection Hbl as <-. injection Hb as Hb.
  apply eexp_inj. rewrite <- Hb. cbn [eexp]. replace (rel_logp_score D rel + ln (eexp x) - rel_logp_score D rel) with (ln (eexp x)) by lra. by rewrite exp_ln.
Qed.
End Increase.

Lemma noisy_reach_doms {V} (E : Emis V) sp ds base W b n data : noisy_reach E sp ds base W b n data -> ds <> [].
Proof.
  induction 1 as [W A b n HW Hds Hk Hn| | | | | ]; try done. intros ->. unfold noisy_new, rel_new in Hn. by rewrite bool_decide_eq_true_2 in Hn.
Qed.
