(** The concentration of every domain stays positive, and declarations stay what they are. *)
From Coq Require Import String Ascii.
From stdpp Require Import gmap strings sorting.
From Coq Require Import ZArith Reals Lra Lia.
From Verif Require Import M_base M_crp M_domain M_dist M_relation M_noisy M_irm
  S_crp S_crp_state S_relation S_irm P_base P_sum P_crp P_crp_score P_domain P_relation P_relation_gibbs P_any P_irm P_irm_schema
  P_irm_history P_irm_gibbs.
Local Open Scope R_scope.

Lemma crp_incorporate_alpha c i t c' : crp_incorporate c i t = Ok c' -> crp_alpha c' = crp_alpha c.
Proof. unfold crp_incorporate. intros H. apply obind_Ok in H as (? & _ & H). by apply obind_Ok in H as (? & _ & [= <-]). Qed.
Lemma crp_unincorporate_alpha c i c' : crp_unincorporate c i = Ok c' -> crp_alpha c' = crp_alpha c.
Proof.
  unfold crp_unincorporate. intros H. apply obind_Ok in H as (? & _ & H). apply obind_Ok in H as (? & _ & H).
  by apply obind_Ok in H as (? & _ & [= <-]).
Qed.
Lemma dom_incorporate_alpha dm e t r dm' r' : dom_incorporate dm e t r = Ok (dm', r') -> crp_alpha (dom_crp dm') = crp_alpha (dom_crp dm).
Proof.
  unfold dom_incorporate. intros H. case_bool_decide.
  - by apply obind_Ok in H as (? & _ & [= <- <-]).
  - apply obind_Ok in H as ([? ?] & _ & H). apply obind_Ok in H as (c & H & [= <- <-]). by eapply crp_incorporate_alpha.
Qed.
Lemma dom_unincorporate_alpha dm e dm' : dom_unincorporate dm e = Ok dm' -> crp_alpha (dom_crp dm') = crp_alpha (dom_crp dm).
Proof.
  unfold dom_unincorporate. intros H. apply obind_Ok in H as (? & _ & H). apply obind_Ok in H as (c & H & [= <-]).
  by eapply crp_unincorporate_alpha.
Qed.
Lemma dom_set_cluster_alpha dm e t dm' : dom_set_cluster dm e t = Ok dm' -> crp_alpha (dom_crp dm') = crp_alpha (dom_crp dm).
Proof.
  unfold dom_set_cluster. intros H. apply obind_Ok in H as (? & _ & H). apply obind_Ok in H as (? & _ & H).
  apply obind_Ok in H as (? & _ & H). apply obind_Ok in H as (c & Hc & H). apply obind_Ok in H as (c' & Hc' & [= <-]). simpl.
  rewrite (crp_incorporate_alpha _ _ _ _ Hc'). by eapply crp_unincorporate_alpha.
Qed.

Lemma positive_insert W d dm : positive W -> 0 < crp_alpha (dom_crp dm) -> positive (<[d := dm]> W).
Proof.
  intros HW Hd d' dm'. destruct (decide (d' = d)) as [->|].
  - rewrite lookup_insert. by intros [= <-].
  - rewrite lookup_insert_ne by done. apply HW.
Qed.

Lemma incorporate_loop_positive W idx ds es items r W' idx' r' :
  positive W -> incorporate_loop W idx ds es items r = Ok (W', idx', r') -> positive W'.
Proof.
  revert W idx es r. induction ds as [|d ds IH]; intros W idx es r HW H; simpl in H; [by simplify_eq|].
  destruct es as [|e es]; [done|]. apply obind_Ok in H as (dm & Hdm & H). apply obind_Ok in H as ([dm' q] & Hi & H).
  apply obind_Ok in H as (m & _ & H). unfold deref in Hdm. apply idx_Ok in Hdm.
  eapply IH; [|exact H]. apply positive_insert; [done|]. rewrite (dom_incorporate_alpha _ _ _ _ _ _ Hi). by eapply HW.
Qed.
Lemma rel_incorporate_positive {V} (D : Dist V) W rel items v r W' rel' r' :
  positive W -> rel_incorporate D W rel items v r = Ok (W', rel', r') -> positive W'.
Proof.
  intros HW H. unfold rel_incorporate in H. apply obind_Ok in H as ([[[W1 rel1] z] q] & H1 & H).
  apply obind_Ok in H as (c & _ & H). apply obind_Ok in H as (c' & _ & [= <- <- <-]).
  unfold incorporate_items in H1. apply obind_Ok in H1 as (? & _ & H1). apply obind_Ok in H1 as ([[W2 idx] q2] & H2 & H1).
  apply obind_Ok in H1 as (z' & _ & H1).
  assert (W1 = W2) as -> by (destruct (_ !! z'); [|destruct (make_new_distribution _ _ _)]; by simplify_eq).
  by eapply incorporate_loop_positive.
Qed.

Section Pos.
Context {V : Type}.
Implicit Types (ir : irm V) (A : clustering) (ar : string -> option nat).

Lemma transition_item_positive o ir d e r ir' r' :
  positive (i_domains ir) -> (exists ar A, irm_holds ar ir A) -> orders_ok o ->
  irm_transition_item o ir d e r = Ok (ir', r') -> positive (i_domains ir').
Proof.
  intros HW (ar & A & Hh) Ho H.
  destruct (irm_transition_item_inv ar o ir A d e r _ Hh H) as [cur Hcur].
  unfold irm_transition_item in H.
  destruct (irm_item_logps_spec ar o ir A d e cur r Hh Ho Hcur) as (dm & sa & w & tables & logps & q & Hlp & _).
  rewrite Hlp in H. cbn [obind] in H. apply obind_Ok in H as ([i q1] & _ & H). apply obind_Ok in H as (t & _ & H).
  apply obind_Ok in H as (dm1 & _ & H). apply obind_Ok in H as (c & _ & H). case_bool_decide; [by simplify_eq|].
  unfold irm_move_item in H. apply obind_Ok in H as (s & _ & H). apply obind_Ok in H as ([ir3 q3] & Hloop & H).
  apply obind_Ok in H as (dm2 & Hdm2 & H). apply obind_Ok in H as (dm3 & Hset & [= <- <-]). simpl.
  pose proof (set_loop_world o d e t _ _ _ _ _ Hloop) as HWe. rewrite HWe in *. unfold deref in Hdm2. apply idx_Ok in Hdm2.
  apply positive_insert; [done|]. rewrite (dom_set_cluster_alpha _ _ _ _ Hset). by eapply HW.
Qed.

Lemma transition_ents_positive ar o d es ir A r ir' r' :
  positive (i_domains ir) -> irm_holds ar ir A -> orders_ok o -> (forall e, e ∈ es -> is_Some (seat A d e)) ->
  foldM (fun '(ir, r) e => irm_transition_item o ir d e r) (ir, r) es = Ok (ir', r') -> positive (i_domains ir').
Proof.
  revert ir A r. induction es as [|e es IH]; intros ir A r HW Hh Ho Hs H; cbn [foldM] in H; [by injection H as <- <-|].
  apply obind_Ok in H as ([ir1 r1] & H1 & H).
  destruct (irm_transition_item_spec ar o ir A d e r Hh Ho (Hs e (elem_of_list_here e es))) as (ir2 & r2 & A' & H2 & Hh' & Hf & Hd & HA').
  rewrite H1 in H2. injection H2 as <- <-.
  eapply (IH ir1 A'); [|done|done| |exact H].
  - eapply transition_item_positive; [exact HW|eauto|done|exact H1].
  - intros e' He'. destruct HA' as [->|[t ->]]; [apply Hs; by right|].
    apply same_entities_move; [apply Hs; left|]. apply Hs. by right.
Qed.

Lemma transition_positive ar o ds ir A r ir' r' :
  positive (i_domains ir) -> irm_holds ar ir A -> orders_ok o -> irm_transition o ir ds r = Ok (ir', r') -> positive (i_domains ir').
Proof.
  revert ir A r. induction ds as [|d ds IH]; intros ir A r HW Hh Ho H; unfold irm_transition in *; cbn [foldM] in H; [by injection H as <- <-|].
  assert (d ∈ dom A) as HdA.
  { eapply (transition_ds_inv ar o (d :: ds)); [exact Hh|done|exact H|left]. }
  apply obind_Ok in H as ([ir1 r1] & H1 & H).
  destruct (transition_domain_spec ar o d ir A r Hh Ho HdA) as (ir2 & r2 & A' & H2 & Hh' & _).
  rewrite H1 in H2. injection H2 as <- <-. eapply IH; [|exact Hh'|done|exact H].
  unfold irm_transition_domain in H1. apply obind_Ok in H1 as (dm & Hdm%at_Ok & H1).
  eapply transition_ents_positive; [exact HW|exact Hh|done| |exact H1].
  intros e He. destruct Ho as (_ & _ & _ & Hoe). rewrite Hoe, elem_of_elements in He.
  apply (in_domain_seat ar ir A d e Hh). by exists dm.
Qed.

Lemma hparams_domains o names ir r ir' r' :
  foldM (irm_hparams_one o) (ir, r) names = Ok (ir', r') -> i_domains ir' = i_domains ir.
Proof.
  revert ir r. induction names as [|n names IH]; intros ir r H; cbn [foldM] in H; [by injection H as <- <-|].
  apply obind_Ok in H as ([ir1 r1] & H1 & H). rewrite (IH _ _ H). unfold irm_hparams_one in H1.
  apply obind_Ok in H1 as (a & _ & H1). by apply obind_Ok in H1 as ([a' q] & _ & [= <- <-]).
Qed.

Lemma alpha_positive ar lg names ir A r ir' r' :
  positive (i_domains ir) -> irm_holds ar ir A -> foldM (irm_alpha_one lg) (ir, r) names = Ok (ir', r') -> positive (i_domains ir').
Proof.
  revert ir r. induction names as [|d names IH]; intros ir r HW Hh H; cbn [foldM] in H; [by injection H as <- <-|].
  apply obind_Ok in H as ([ir1 r1] & H1 & H).
  assert (foldM (irm_alpha_one lg) (ir, r) [d] = Ok (ir1, r1)) as H1' by (cbn [foldM]; by rewrite H1).
  destruct (alpha_loop_spec ar lg [d] ir A r ir1 r1 Hh H1') as [Hh1 _].
  eapply IH; [|exact Hh1|exact H]. unfold irm_alpha_one in H1. apply obind_Ok in H1 as (dm & Hdm%at_Ok & H1).
  apply obind_Ok in H1 as ([c q] & Hc & [= <- <-]). simpl. apply positive_insert; [done|]. simpl.
  pose proof (ih_world _ _ _ Hh d) as Hw. rewrite Hdm in Hw. destruct (A !! d) as [sa|]; [|done]. destruct Hw as [_ Hds].
  destruct (transition_alpha_spec lg (dom_crp dm) sa r Hds) as (c' & r3 & Hc' & _ & _ & _ & He & Hne).
  rewrite Hc in Hc'. injection Hc' as <- <-. destruct (decide (sa = ∅)) as [Hsa|Hsa].
  - rewrite (He Hsa). by eapply HW.
  - destruct (Hne Hsa) as [Hlo _]. eapply Rlt_le_trans; [|exact Hlo]. apply Rdiv_lt_0_compat; [lra|].
    apply lt_0_INR. destruct (size sa) eqn:E; [|lia]. by apply map_size_empty_iff in E.
Qed.

Lemma irm_do_positive ar ir A c ir' :
  positive (i_domains ir) -> irm_holds ar ir A -> irm_call_ok c -> irm_do ir c = Ok ir' -> positive (i_domains ir').
Proof.
  intros HW Hh Hok Hdo. destruct c as [name items v r|o name items|o d e r|o ds r|o r|lg o r]; simpl in Hok; cbn [irm_do] in Hdo.
  - apply obind_Ok in Hdo as ([ir1 r1] & Hi & [= <-]). unfold irm_incorporate in Hi.
    apply obind_Ok in Hi as (a & _ & Hi). apply obind_Ok in Hi as ([[W1 a1] q] & Hi & [= <- <-]). simpl.
    destruct a as [D rel|n]; simpl in Hi.
    + apply obind_Ok in Hi as ([[W2 rel2] q2] & Hi & [= <- <- <-]). by eapply rel_incorporate_positive.
    + apply obind_Ok in Hi as (b & _ & Hi). apply obind_Ok in Hi as ([[W2 n2] q2] & Hi & [= <- <- <-]).
      unfold noisy_incorporate in Hi. apply obind_Ok in Hi as (bi & _ & Hi). apply obind_Ok in Hi as (bv & _ & Hi).
      apply obind_Ok in Hi as ([[W3 rel3] q3] & Hi & [= <- <- <-]). by eapply rel_incorporate_positive.
  - unfold irm_unincorporate in Hdo. apply obind_Ok in Hdo as (a & _ & Hdo). apply obind_Ok in Hdo as (a' & _ & Hdo).
    apply obind_Ok in Hdo as (t & _ & Hdo). case_bool_decide; [|done]. apply obind_Ok in Hdo as (m & _ & Hdo).
    apply obind_Ok in Hdo as ([W m'] & Hd & [= <-]). simpl in *. clear H. revert Hd HW. generalize (i_domains ir) as W0.
    generalize (zip (t_domains t) items) as l. intros l. revert m. induction l as [|[d e] l IH]; intros m W0 Hd HW; cbn [foldM] in Hd.
    { by injection Hd as <- <-. }
    apply obind_Ok in Hd as ([W1 m1] & H1 & Hd). eapply IH; [exact Hd|]. unfold drop_absent in H1.
    apply obind_Ok in H1 as (b & _ & H1). destruct b; [by injection H1 as <- <-|].
    apply obind_Ok in H1 as (dm & Hdm & H1). apply obind_Ok in H1 as (dm' & Hu & [= <- <-]). unfold deref in Hdm. apply idx_Ok in Hdm.
    apply positive_insert; [done|]. rewrite (dom_unincorporate_alpha _ _ _ Hu). by eapply HW.
  - apply obind_Ok in Hdo as ([ir1 r1] & Hi & [= <-]). eapply transition_item_positive; [exact HW|eauto|done|exact Hi].
  - apply obind_Ok in Hdo as ([ir1 r1] & Hi & [= <-]). by eapply transition_positive.
  - apply obind_Ok in Hdo as ([ir1 r1] & Hi & [= <-]). by eapply transition_positive.
  - apply obind_Ok in Hdo as ([ir1 r1] & Hi & [= <-]). unfold irm_single_step in Hi. cbn [obind] in Hi.
    destruct (transition_all_spec ar o ir A r Hh Hok) as (ir2 & r2 & A1 & H1 & Hh1 & _). rewrite H1 in Hi. cbn [obind] in Hi.
    apply obind_Ok in Hi as ([ir3 r3] & H3 & Hi).
    destruct (hparams_loop_spec ar o _ ir2 A1 r2 ir3 r3 Hh1 H3) as [Hh2 _].
    eapply alpha_positive; [|exact Hh2|exact Hi]. rewrite (hparams_domains _ _ _ _ _ _ H3). by eapply transition_positive.
Qed.

Lemma irm_history_positive ar cs ir A ir' :
  positive (i_domains ir) -> irm_holds ar ir A -> irm_tight ir A -> Forall irm_call_ok cs -> foldM irm_do ir cs = Ok ir' ->
  positive (i_domains ir').
Proof.
  revert ir A. induction cs as [|c cs IH]; intros ir A HW Hh Ht Hok Hf; cbn [foldM] in Hf; [by injection Hf as <-|].
  apply Forall_cons in Hok as [Hc Hcs]. apply obind_Ok in Hf as (ir1 & H1 & Hf).
  destruct (irm_do_effect ar ir A c ir1 Hh Ht Hc H1) as (A1 & Hh1 & Ht1 & _).
  eapply IH; [|exact Hh1|exact Ht1|done|exact Hf]. by eapply irm_do_positive.
Qed.

Lemma add_domains_positive ir name ds ir' :
  positive (i_domains ir) -> add_domains ir name ds = Ok ir' -> positive (i_domains ir').
Proof.
  unfold add_domains. revert ir. induction ds as [|d ds IH]; intros ir HW H; cbn [foldM] in H; [by injection H as <-|].
  apply obind_Ok in H as (ir1 & H1 & H). eapply IH; [|exact H].
  apply obind_Ok in H1 as (ir2 & H2 & H1). apply obind_Ok in H1 as (s & _ & H1). apply obind_Ok in H1 as (dm & _ & [= <-]). simpl.
  case_bool_decide; [by injection H2 as <-|]. apply obind_Ok in H2 as (? & _ & [= <-]). simpl.
  apply positive_insert; [done|]. simpl. lra.
Qed.
Lemma irm_add_positive ir name t ir' :
  positive (i_domains ir) -> irm_add_relation ir name t = Ok ir' -> positive (i_domains ir').
Proof.
  intros HW H. destruct t as [ds obs D sp|ds obs E sp base]; simpl in H.
  - unfold irm_add_clean in H. apply obind_Ok in H as (? & _ & H). apply obind_Ok in H as (ir1 & H1 & H).
    apply obind_Ok in H as (rel & _ & [= <-]). simpl. by eapply add_domains_positive.
  - unfold irm_add_noisy in H. apply obind_Ok in H as (? & _ & H). apply obind_Ok in H as (ir1 & H1 & H).
    apply obind_Ok in H as (? & _ & H). apply obind_Ok in H as (n & _ & [= <-]). simpl. by eapply add_domains_positive.
Qed.
Lemma irm_new_positive schema ir : irm_new schema = Ok ir -> positive (i_domains (ir : irm V)).
Proof.
  intros H. unfold irm_new in H. apply obind_Ok in H as (ir1 & H & H1). apply obind_Ok in H1 as (? & _ & [= <-]).
  assert (positive (i_domains (irm_empty : irm V))) as H0 by (intros d dm; simpl; by rewrite lookup_empty).
  revert H H0. generalize (irm_empty : irm V) as ir0. generalize (sorted_names schema) as l. intros l.
  induction l as [|n l IH]; intros ir0 H H0; cbn [foldM] in H; [by injection H as <-|].
  apply obind_Ok in H as (ir2 & H2 & H). apply obind_Ok in H2 as (t & _ & H2). eapply IH; [exact H|]. by eapply irm_add_positive.
Qed.

Lemma determined_schema ar ir A :
  irm_holds ar ir A -> (forall name t, i_schema ir !! name = Some t -> t_determined t) -> all_determined ir.
Proof.
  intros Hh Hd name a Ha. destruct (irm_schema_lookup ar ir A name a Hh Ha) as (t & Ht & Hty & _).
  specialize (Hd name t Ht). rewrite Hty in Hd. by destruct a.
Qed.
End Pos.
