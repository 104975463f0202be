(** What an observation adds to the joint score of a HIRM: C63. *)
From Coq Require Import String Ascii.
From stdpp Require Import gmap strings list.
From Coq Require Import ZArith Reals Lia Lra.
From Verif Require Import M_base M_math M_crp M_domain M_dist M_distributions M_relation M_noisy M_irm M_logp M_hirm S_math S_crp S_crp_state S_dist S_relation S_logp S_irm S_hirm
  P_base P_math P_sum P_crp P_domain P_relation P_dist P_beta_bernoulli P_dirichlet P_normal P_bigram P_any P_irm P_irm_schema P_irm_history P_irm_gibbs P_logp P_hirm P_hirm_move P_hirm_history P_hirm_ctor
  M_emissions P_emission_laws M_strdist P_strdist T_dist T_emissions T_strdist T_irm T_hirm T_logp S_hirm_logp T_hirm_logp S_score P_score P_hirm_pos.
Local Open Scope string_scope.
Local Open Scope list_scope.
Local Open Scope nat_scope.
Local Open Scope R_scope.

Section Score.
Context {V : Type}.
Implicit Types h : hirm V.

Lemma chain_rule lg h a name ty items v r h' r' : is_lgamma lg -> hirm_holds h a -> hirm_positive h -> h_schema h !! name = Some ty -> t_predictive ty ->
  hirm_incorporate h name items v r = Ok (h', r') ->
  exists t ir ir' A A' p q, table_of h name = Some t /\ h_irms h !! t = Some ir /\ h_irms h' !! t = Some ir' /\
    irm_holds (schema_arity (h_schema h)) ir A /\ world_holds (i_domains ir') A' /\
    seats (alpha_of (i_domains ir)) A (zip (t_domains ty) items) p A' /\ value_lik h ir (seat A') name items v = Some q /\ 0 < p /\ 0 < q /\
    hirm_logp_score lg h' = hirm_logp_score lg h + ln p + ln q.
Proof.
  intros Hlg Hh Hp Hty Hpr H. unfold hirm_incorporate in H. apply obind_Ok in H as (t & Ht%relation_to_table_Ok & H). apply obind_Ok in H as (ir & Hir%at_Ok & H).
  apply obind_Ok in H as ([ir' r1] & Hi & [= <- <-]).
  destruct (member h a name ty Hh Hty) as (rc & tb & ir0 & A & x & _ & _ & Htb & Hir0 & HA & _ & Hx & Htx & _). rewrite Ht in Htb. injection Htb as <-.
  rewrite Hir in Hir0. injection Hir0 as <-.
  destruct (irm_incorporate_score lg _ h ir A name x (t_observed ty) items v r ir' r1 Hlg HA) as (A' & p & q & HW' & Hs & Hpp & Hq & Hl & E); [intros d dm; by eapply Hp|done|by rewrite <- Htx|done|].
  exists t, ir, ir', A, A', p, q. cbn [h_irms h_set_irms h_crp]. rewrite lookup_insert. split_and!; try done.
  - assert (t_domains ty = any_doms x) as ->; [|done]. rewrite Htx. apply any_type_t_domains.
  - rewrite !hirm_score_sum. cbn [h_irms h_set_irms h_crp]. rewrite (sum_map_update _ _ _ _ _ Hir), E. lra.
Qed.

(** Incorporating an observation multiplies the joint probability of the model by the
    probability of the clusters its new entities are given and the probability of the value
    in its block. *)
Theorem C63_chain_rule lg schema r0 h0 q0 cs h name ty items v r h' r' : is_lgamma lg -> schema_lawful schema -> hirm_new schema r0 = Ok (h0, q0) -> hirm_run h0 cs h ->
  h_schema h !! name = Some ty -> t_predictive ty -> hirm_incorporate h name items v r = Ok (h', r') ->
  exists t ir ir' A A' p q, table_of h name = Some t /\ h_irms h !! t = Some ir /\ h_irms h' !! t = Some ir' /\
    world_holds (i_domains ir) A /\ world_holds (i_domains ir') A' /\
    seats (alpha_of (i_domains ir)) A (zip (t_domains ty) items) p A' /\ value_lik h ir (seat A') name items v = Some q /\ 0 < p /\ 0 < q /\
    exp (hirm_logp_score lg h') = exp (hirm_logp_score lg h) * p * q.
Proof.
  intros Hlg HL H0 Hrun Hty Hpr Hi. destruct (proj1 (hirm_new_spec schema r0 HL) _ _ H0) as [([a0 Hh0] & _) _]. destruct (hirm_run_spec h0 cs h Hrun a0 Hh0) as ([a Hh] & _ & _).
  destruct (chain_rule lg h a name ty items v r h' r' Hlg Hh (run_positive _ _ _ _ _ _ HL H0 Hrun) Hty Hpr Hi) as (t & ir & ir' & A & A' & p & q & ? & ? & ? & HA & ? & ? & ? & ? & ? & E).
  exists t, ir, ir', A, A', p, q. split_and!; try done; [exact (ih_world _ _ _ HA)|]. rewrite E, !exp_plus, !exp_ln by done. done.
Qed.

Lemma seats_all_known alpha A l p A' : seats alpha A l p A' -> Forall (fun de => is_Some (seat A de.1 de.2)) l -> p = 1 /\ A' = A.
Proof.
  induction 1 as [A|A d e l p A' Hk Hs IH|A d e t s l p A' Hd He Hs IH]; intros HF; [done|apply Forall_cons in HF as [_ HF]; by apply IH|].
  apply Forall_cons in HF as [[t' Ht'] _]. cbn in Ht'. unfold seat in Ht'. rewrite Hd in Ht'. cbn in Ht'. congruence.
Qed.

(** The score goes up by what [logp] said before, if the entities of the observation are known. *)
Theorem C63_logp_is_score_increase lg schema r0 h0 q0 cs h name ds ob D sp o items v r h' r' r1 x r2 : is_lgamma lg -> schema_lawful schema ->
  hirm_new schema r0 = Ok (h0, q0) -> hirm_run h0 cs h -> h_schema h !! name = Some (TClean ds ob D sp) -> t_predictive (TClean ds ob D sp) ->
  (forall n ds' ob' D' sp', h_schema h !! n = Some (TClean ds' ob' D' sp') -> forall q q', (d_new D' sp' q).1 = (d_new D' sp' q').1) ->
  (forall t ir d e, table_of h name = Some t -> h_irms h !! t = Some ir -> (d, e) ∈ zip ds items -> is_Some (entity_cluster ir d e)) ->
  orders_ok o -> hirm_logp o h [(name, items, v)] r1 = Ok (x, r2) -> hirm_incorporate h name items v r = Ok (h', r') ->
  exp (hirm_logp_score lg h') = exp (hirm_logp_score lg h) * eexp x.
Proof.
  intros Hlg HL H0 Hrun Hty Hpr Hfr Hkn Ho Hx Hi. destruct (proj1 (hirm_new_spec schema r0 HL) _ _ H0) as [([a0 Hh0] & _) _]. destruct (hirm_run_spec h0 cs h Hrun a0 Hh0) as ([a Hh] & _ & _).
  destruct (chain_rule lg h a name _ items v r h' r' Hlg Hh (run_positive _ _ _ _ _ _ HL H0 Hrun) Hty Hpr Hi) as (t & ir & ir' & A & A' & p & q & Ht & Hir & Hir' & HA & HW' & Hs & Hq & Hpp & Hqp & E).
  assert (Forall (fun de => is_Some (seat A de.1 de.2)) (zip ds items)) as HF.
  { apply Forall_forall. intros [d e] Hde. cbn. rewrite (seat_entity _ _ _ _ _ HA). by eapply Hkn. }
  destruct (seats_all_known _ _ _ _ _ Hs HF) as [-> ->]. rewrite ln_1 in E. rewrite E, Rplus_0_r, exp_plus, exp_ln by done. f_equal.
  pose proof (reached_scorable _ _ _ _ _ _ HL H0 Hrun Hfr) as Hsc.
  destruct (member h a name _ Hh Hty) as (rc & tb & ir0 & A0 & y & _ & _ & Htb & Hir0 & HA0 & _ & Hy & Hty' & _). rewrite Ht in Htb. injection Htb as <-. rewrite Hir in Hir0. injection Hir0 as <-.
  rewrite (C62_logp_known h a o _ r1 x r2 Hh Hsc Ho) with (2 := Hx).
  - rewrite fmap_cons. cbn [fmap list_fmap]. rewrite Rprod_cons. cbn [Rprod foldr]. unfold hirm_lik. cbn [fst snd]. rewrite Ht. cbn [mbind option_bind]. rewrite Hir. cbn [mbind option_bind].
    assert (observation_lik ir (entity_cluster ir) (name, items, v) = Some q) as ->; [|cbn; ring].
    unfold value_lik in Hq. rewrite Hy in Hq. unfold observation_lik. rewrite Hy. destruct y as [D' rel|n]; [|done]. unfold block_lik in Hq. rewrite <- Hq.
    assert (mapM (fun p => seat A p.1 p.2) (zip (r_doms rel) items) = mapM (fun p => entity_cluster ir p.1 p.2) (zip (r_doms rel) items)) as ->; [|done].
    apply mapM_ext. intros [d e]. apply (seat_entity _ _ _ _ _ HA).
  - intros obs t' ir2 d e Hob Hc Hir2 (b & Hb & Hm). apply elem_of_list_singleton in Hob as ->. unfold in_cluster in Hc. cbn in Hc, Hb, Hm. assert (ir2 = ir) as -> by congruence.
    assert (b = y) as -> by congruence. eapply Hkn; [done|done|]. destruct y as [D' rel|n]; [|done]. cbn [any_type t_observed] in Hty'. unfold mentions in Hm. cbn in Hm.
    assert (ds = r_doms rel) as -> by congruence. done.
Qed.
End Score.
Print Assumptions C63_chain_rule.
Print Assumptions C63_logp_is_score_increase.

(** ** Which distributions score as they predict *)
Theorem C63_beta_bernoulli lg : is_lgamma lg -> scores_predictively (bb_dist lg).
Proof. intros Hlg s l v s' Hh [= <-]. eexists. split; [reflexivity|]. cbn [d_score bb_dist]. rewrite <- (C19_logp_is_score_increase lg s l v Hlg Hh). lra. Qed.
Theorem C63_dirichlet_categorical lg k : is_lgamma lg -> scores_predictively (dc_dist lg k).
Proof.
  intros Hlg s l v s' Hh Hi. cbn [d_inc dc_dist] in Hi. pose proof (C20_range lg k s l v 1 Hh) as Hr. destruct (decide (0 <= v < Z.of_nat k)%Z) as [Hv|Hv]; [|destruct Hr; congruence].
  destruct (C20_predictive lg k s l (Z.to_nat v) Hh ltac:(lia)) as (p & Hp & _). rewrite Z2Nat.id in Hp by lia.
  exists p. cbn [d_logp d_score dc_dist]. rewrite Hp. split; [done|]. rewrite <- (C20_logp_is_score_increase lg k s l v p s' Hlg Hh Hp Hi). lra.
Qed.
Theorem C63_normal lg smp : scores_predictively (nm_dist lg smp).
Proof. intros s l v s' Hh [= <-]. eexists. split; [reflexivity|]. cbn [d_score nm_dist]. rewrite (C21_logp lg smp s l v Hh). cbn. lra. Qed.
Theorem C63_bigram nearest lg ml mn mx : is_lgamma lg -> scores_predictively (bg_dist_with nearest lg ml mn mx).
Proof.
  intros Hlg s l v s' Hh Hi. cbn [d_inc bg_dist_with] in Hi.
  assert (exists p s1, bg_logp s v = Ok (p, s1)) as (p & s1 & Hp).
  { destruct (history_lawful _ (bg_lawful nearest lg ml mn mx) s l Hh) as [_ [[a Ha] ->]]. cbn [law_of bg_lawful proj1_sig] in *. destruct (bg_inc_Ok _ _ _ _ _ _ _ _ Hi) as [_ Hc].
    eexists _, _. by apply (bg_logp_of lg). }
  exists p. cbn [d_logp d_score bg_dist_with]. rewrite Hp. split; [done|]. destruct (C23_logp nearest lg ml mn mx s l v p s1 s' Hlg Hh Hp) as [_ E]. specialize (E Hi). lra.
Qed.
Theorem C63_string_cat lg pick strings : is_lgamma lg -> scores_predictively (sc_dist lg pick strings).
Proof.
  intros Hlg s l v s' Hh Hi. cbn [d_inc sc_dist] in Hi.
  assert (exists p, sc_logp s v = Ok p) as [p Hp].
  { destruct (history_lawful _ (sc_lawful lg pick strings) _ _ Hh) as [Ha [[a Hp] ->]]. cbn [law_of law_adm sc_lawful proj1_sig] in *.
    unfold sc_logp, sc_incorporate in *. rewrite (sc_index strings) in * by done. destruct (decide (v ∈ strings)) as [Hx|Hx]; [|done].
    cbn [obind sc_of sc_dc sc_strings sc_N]. eexists. apply dc_logp_of. by apply index_in_cats. }
  exists p. cbn [d_logp d_score sc_dist]. rewrite Hp. split; [done|]. rewrite <- (C57_logp_is_score_increase lg pick strings s l v p s' Hlg Hh Hp Hi). lra.
Qed.
Theorem C63_gaussian lg smp : scores_predictively (em_dist (gaussian_emis lg smp)).
Proof. intros s l v s' Hh [= <-]. eexists. split; [reflexivity|]. cbn [d_score em_dist gaussian_emis]. rewrite <- (C50_gaussian lg smp s l v Hh). lra. Qed.
Theorem C63_sometimes_bitflip lg : is_lgamma lg -> scores_predictively (em_dist (sometimes_bitflip lg)).
Proof.
  intros Hlg s l v s' Hh Hi. pose proof (C50_sometimes_bitflip lg s l v s' Hlg Hh Hi) as E. eexists. cbn [d_logp d_score em_dist sometimes_bitflip sometimes_emis]. rewrite E. split; [reflexivity|]. lra.
Qed.
Theorem C63_sometimes_gaussian lg smp : is_lgamma lg -> scores_predictively (em_dist (sometimes_gaussian lg smp)).
Proof.
  intros Hlg s l v s' Hh Hi. pose proof (C50_sometimes_gaussian lg smp s l v s' Hlg Hh Hi) as E. eexists. cbn [d_logp d_score em_dist sometimes_gaussian sometimes_emis]. rewrite E. split; [reflexivity|]. lra.
Qed.

(** A clean relation and a noisy one on it; the second observation of each has a known entity. *)
Definition C63_schema lg : gmap string (t_rel bool) :=
  {[ "r" := TClean ["d"] true (bb_dist lg) tt; "a" := TNoisy ["d"] true (sometimes_bitflip lg) tt "r" ]}.
Definition C63_calls : list (hirm_call bool) :=
  [HIncorporate "r" [1]%Z true [0]; HIncorporate "r" [2]%Z false [1]; HIncorporate "a" [1]%Z false [0]]%nat.
Lemma C63_schema_lawful lg : schema_lawful (C63_schema lg).
Proof.
  intros name t. unfold C63_schema. intros [[<- <-]|[Hne Ht]]%lookup_insert_Some.
  - split; [by exists (bb_lawful lg)|done].
  - apply lookup_singleton_Some in Ht as [<- <-]. split; [by exists (sb_lawful lg)|]. intros b tb [= <-].
    rewrite lookup_insert. intros [= <-]. simpl. lia.
Qed.
Example C63_example lg : is_lgamma lg -> exists h0 q0 h h1 q1 h2 q2, schema_lawful (C63_schema lg) /\ hirm_new (C63_schema lg) [0; 1]%nat = Ok (h0, q0) /\ hirm_run h0 C63_calls h /\
  h_schema h = C63_schema lg /\ t_predictive (TClean ["d"] true (bb_dist lg) tt) /\ t_predictive (TNoisy ["d"] true (sometimes_bitflip lg) tt "r") /\
  hirm_incorporate h "a" [2]%Z false [] = Ok (h1, q1) /\ hirm_incorporate h "r" [3]%Z false [1]%nat = Ok (h2, q2).
Proof.
  intros Hlg.
  assert ((let* h := (let* (h0, _) := hirm_new (C63_schema lg) [0; 1]%nat in foldM hirm_do h0 C63_calls) in
    let* (h1, _) := hirm_incorporate h "a" [2]%Z false [] in let* (h2, _) := hirm_incorporate h "r" [3]%Z false [1]%nat in Ok (dom (h_irms h1), dom (h_irms h2))) = Ok ({[ 0; 1 ]}, {[ 0; 1 ]})%Z) as H by by_compute.
  apply obind_Ok in H as (h & H & Hr). apply obind_Ok in Hr as ([h1 q1] & H1 & Hr). apply obind_Ok in Hr as ([h2 q2] & H2 & _).
  destruct (start_and_run (C63_schema lg) [0; 1]%nat C63_calls h (C63_schema_lawful lg)) as (h0 & q0 & H0 & _ & Hrun); [done|done|].
  exists h0, q0, h, h1, q1, h2, q2. split; [apply C63_schema_lawful|]. split; [exact H0|]. split; [exact Hrun|]. split.
  { destruct (proj1 (hirm_new_spec _ _ (C63_schema_lawful lg)) _ _ H0) as [([a0 Hh0] & _) Hs0]. destruct (hirm_run_spec h0 C63_calls h Hrun a0 Hh0) as (_ & Hs & _). by rewrite Hs, Hs0. }
  split; [split; [done|by apply C63_beta_bernoulli]|]. split; [split; [done|by apply C63_sometimes_bitflip]|]. split; [exact H1|exact H2].
Qed.
