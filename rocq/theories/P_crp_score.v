From stdpp Require Import gmap sorting.
From Coq Require Import ZArith Reals Lra Lia.
From Verif Require Import M_base M_math M_crp S_crp S_crp_state S_math P_base P_math P_sum P_crp.
Local Open Scope R_scope.

Lemma gset_size_ne0 (s : gset Z) : s <> ∅ -> size s <> 0%nat.
Proof. intros Hs Hz. apply size_empty_inv in Hz. fold_leibniz. done. Qed.

Lemma INR_size_pos (s : gset Z) : s <> ∅ -> 0 < INR (size s).
Proof. intros Hs. apply lt_0_INR. pose proof (gset_size_ne0 s Hs). lia. Qed.

Lemma INR_N c a : holds_seating c a -> IZR (crp_N c) = INR (size a).
Proof. intros H. rewrite (hs_N _ _ H). symmetry. apply INR_IZR_INZ. Qed.

Lemma ln_div' x y : 0 < x -> 0 < y -> ln (x / y) = ln x - ln y.
Proof. intros. unfold Rdiv. rewrite ln_mult, ln_Rinv; [lra|done|done|by apply Rinv_0_lt_compat]. Qed.

(** * C03 *)
Lemma crp_probabilities c a :
  holds_seating c a -> a <> ∅ -> 0 < crp_alpha c ->
  exists w tnew, crp_tables_weights c = Ok w /\ customers_at a tnew = ∅ /\
    (forall t, is_Some (w !! t) <-> customers_at a t <> ∅ \/ t = tnew) /\
    (forall t, customers_at a t <> ∅ ->
       crp_logp c t = Ok (Some (ln (INR (size (customers_at a t)) / (INR (size a) + crp_alpha c))))) /\
    crp_logp c tnew = Ok (Some (ln (crp_alpha c / (INR (size a) + crp_alpha c)))) /\
    crp_logp_new_table c = ln (crp_alpha c / (INR (size a) + crp_alpha c)) /\
    (forall t, customers_at a t = ∅ -> t <> tnew -> crp_logp c t = Ok None) /\
    sum_map (fun t _ => match crp_logp c t with Ok l => eexp l | _ => 0 end) w = 1.
Proof.
  intros H Ha Hal. destruct (tables_weights_spec c a H Ha) as (w & tnew & Hw & Hnew & _ & Hlk).
  exists w, tnew. split; [done|]. split; [done|].
  assert (0 <= INR (size a)) as HNpos by apply pos_INR.
  assert (forall t, is_Some (w !! t) <-> customers_at a t <> ∅ \/ t = tnew) as Hdom.
  { intros t. rewrite Hlk. destruct (decide (customers_at a t = ∅)) as [He|Hne].
    - destruct (decide (t = tnew)) as [->|Hn]; split; eauto; [by intros []|naive_solver].
    - split; eauto. }
  assert (forall t, customers_at a t <> ∅ ->
       crp_logp c t = Ok (Some (ln (INR (size (customers_at a t)) / (INR (size a) + crp_alpha c))))) as Hocc.
  { intros t Ht. unfold crp_logp. rewrite Hw. simpl. rewrite Hlk, decide_False by done.
    rewrite (INR_N c a H). rewrite ln_div'; [done|by apply INR_size_pos|lra]. }
  assert (crp_logp c tnew = Ok (Some (ln (crp_alpha c / (INR (size a) + crp_alpha c))))) as Hn.
  { unfold crp_logp. rewrite Hw. simpl. rewrite Hlk, decide_True, decide_True by done.
    rewrite (INR_N c a H). rewrite ln_div'; [done|lra|lra]. }
  repeat split; try done.
  - by apply Hdom.
  - by apply Hdom.
  - unfold crp_logp_new_table. rewrite (INR_N c a H), ln_div'; [done|lra|lra].
  - intros t He Hne. unfold crp_logp. rewrite Hw. simpl.
    by rewrite Hlk, decide_True, decide_False by done.
  - transitivity (sum_map (fun _ x => / (INR (size a) + crp_alpha c) * x) w).
    + apply sum_map_ext. intros t v Hv. rewrite Hlk in Hv.
      destruct (decide (customers_at a t = ∅)) as [He|Hne].
      * destruct (decide (t = tnew)) as [->|]; [|done]. injection Hv as <-.
        rewrite Hn. simpl. rewrite exp_ln; [lra|]. apply Rdiv_lt_0_compat; lra.
      * injection Hv as <-. rewrite Hocc by done. simpl. rewrite exp_ln; [lra|].
        apply Rdiv_lt_0_compat; [by apply INR_size_pos|lra].
    + rewrite sum_map_scal, (tables_weights_sum c a w H Ha Hw). field. lra.
Qed.

(** * C04 *)
Definition tables_lg (lg : R -> R) (m : gmap Z (gset Z)) : R :=
  sum_map (fun _ (s : gset Z) => lg (INR (size s))) m.

Lemma score_alt lg c : crp_logp_score lg c =
  INR (size (crp_tables c)) * ln (crp_alpha c) + tables_lg lg (crp_tables c)
  + lg (crp_alpha c) - lg (IZR (crp_N c) + crp_alpha c).
Proof.
  unfold crp_logp_score, tables_lg.
  by rewrite (map_fold_sum_map (fun _ (s : gset Z) => lg (INR (size s)))).
Qed.

Lemma incorporate_tables c a i t c' :
  holds_seating c a -> crp_incorporate c i t = Ok c' ->
  a !! i = None /\ holds_seating c' (<[i := t]> a) /\ crp_alpha c' = crp_alpha c /\
  crp_tables c' = <[t := {[i]} ∪ customers_at a t]> (crp_tables c).
Proof.
  intros H Hc'. destruct (a !! i) eqn:E.
  { rewrite (holds_incorporate_assert c a i t) in Hc' by eauto. done. }
  destruct (holds_incorporate c a i t H E) as (c2 & Hc2 & Hh & Hal).
  rewrite Hc' in Hc2. injection Hc2 as <-. repeat split; try done; try apply Hh.
  apply map_eq. intros t'. rewrite (hs_tables _ _ Hh).
  destruct (decide (t = t')) as [<-|Hne].
  - rewrite lookup_insert, customers_at_insert_eq by done. rewrite decide_False; [done|set_solver].
  - rewrite lookup_insert_ne, customers_at_insert_ne by done. by rewrite (hs_tables _ _ H).
Qed.

Lemma score_incorporate lg c a i t c' :
  is_lgamma lg -> holds_seating c a -> 0 < crp_alpha c -> crp_incorporate c i t = Ok c' ->
  crp_logp_score lg c' - crp_logp_score lg c =
    (if decide (customers_at a t = ∅) then ln (crp_alpha c) else ln (INR (size (customers_at a t))))
    - ln (INR (size a) + crp_alpha c).
Proof.
  intros [Hlg1 Hlg] H Hal Hc'.
  destruct (incorporate_tables c a i t c' H Hc') as (Hi & Hh & Hal' & Htab).
  rewrite !score_alt, Htab, Hal', (INR_N c a H), (INR_N c' _ Hh).
  rewrite (map_size_insert_None i t a) by done. rewrite S_INR.
  assert (0 <= INR (size a)) as HNpos by apply pos_INR.
  replace (INR (size a) + 1 + crp_alpha c) with (INR (size a) + crp_alpha c + 1) by lra.
  rewrite Hlg by lra. unfold tables_lg.
  assert (i ∉ customers_at a t) as Hni by (rewrite elem_of_customers_at; congruence).
  pose proof (hs_tables _ _ H t) as Ht. revert Ht.
  destruct (decide (customers_at a t = ∅)) as [He|Hne]; intros Ht.
  - rewrite sum_map_insert, map_size_insert_None by done.
    rewrite He, union_empty_r_L, size_singleton, S_INR. simpl INR. rewrite Hlg1. lra.
  - rewrite (sum_map_update _ _ _ _ _ Ht), map_size_insert_Some by eauto.
    rewrite size_union by set_solver. rewrite size_singleton, plus_INR. simpl INR.
    rewrite (Rplus_comm 1). rewrite Hlg by by apply INR_size_pos. lra.
Qed.

Lemma chain_rule lg c a i t c' l :
  is_lgamma lg -> holds_seating c a -> 0 < crp_alpha c -> (a <> ∅ \/ crp_alpha c = 1) ->
  crp_incorporate c i t = Ok c' -> crp_logp c t = Ok (Some l) ->
  crp_logp_score lg c' - crp_logp_score lg c = l.
Proof.
  intros Hlg H Hal Hor Hc' Hl. rewrite (score_incorporate lg c a i t c') by done.
  assert (0 <= INR (size a)) as HNpos by apply pos_INR.
  destruct (decide (a = ∅)) as [Hempty|Hne].
  - destruct Hor as [?|H1]; [done|]. unfold crp_logp, crp_tables_weights in Hl.
    rewrite bool_decide_eq_true_2 in Hl by by apply (N_zero_iff c a H). simpl in Hl.
    destruct (decide (t = 0%Z)) as [->|Ht].
    + rewrite lookup_singleton in Hl. injection Hl as <-. rewrite Hempty.
      rewrite decide_True by by rewrite customers_at_empty. rewrite map_size_empty, H1.
      rewrite (INR_N c a H), Hempty, map_size_empty. done.
    + rewrite lookup_singleton_ne in Hl by done. done.
  - destruct (tables_weights_spec c a H Hne) as (w & tnew & Hw & Hnew & _ & Hlk).
    unfold crp_logp in Hl. rewrite Hw in Hl. simpl in Hl. rewrite Hlk in Hl.
    rewrite (INR_N c a H) in Hl.
    destruct (decide (customers_at a t = ∅)) as [He|Hn].
    + destruct (decide (t = tnew)); [|done]. injection Hl as <-. done.
    + injection Hl as <-. done.
Qed.

Lemma chain_rule_new lg c a i t c' :
  is_lgamma lg -> holds_seating c a -> 0 < crp_alpha c -> customers_at a t = ∅ ->
  crp_incorporate c i t = Ok c' ->
  crp_logp_score lg c' - crp_logp_score lg c = crp_logp_new_table c.
Proof.
  intros Hlg H Hal He Hc'. rewrite (score_incorporate lg c a i t c') by done.
  rewrite decide_True by done. unfold crp_logp_new_table. by rewrite (INR_N c a H).
Qed.

Lemma seat_scored_score lg c a l s c' :
  is_lgamma lg -> holds_seating c a -> a <> ∅ -> 0 < crp_alpha c ->
  seat_scored c l = Ok (Some s, c') ->
  s = crp_logp_score lg c' - crp_logp_score lg c /\ crp_alpha c' = crp_alpha c /\
  exists a', holds_seating c' a'.
Proof.
  intros Hlg. revert c a s. induction l as [|[i t] l IH]; intros c a s H Ha Hal Hs; simpl in Hs.
  - injection Hs as <- <-. split; [lra|]. eauto.
  - destruct (crp_logp c t) as [lp| | | | |] eqn:Elp; try done. simpl in Hs.
    destruct (crp_incorporate c i t) as [c1| | | | |] eqn:Ec1; try done. simpl in Hs.
    destruct (seat_scored c1 l) as [[s1 c2]| | | | |] eqn:Es; try done. simpl in Hs.
    destruct lp as [x|]; [|done]. destruct s1 as [y|]; [|done]. injection Hs as <- <-.
    destruct (incorporate_tables c a i t c1 H Ec1) as (Hi & Hh & Hal' & _).
    destruct (IH c1 (<[i:=t]> a) y Hh) as (-> & Hal2 & Hex).
    + intros He. apply (f_equal (fun m : gmap Z Z => m !! i)) in He. by rewrite lookup_insert, lookup_empty in He.
    + by rewrite Hal'.
    + done.
    + rewrite <- (chain_rule lg c a i t c1 x) by eauto. split; [lra|]. split; [congruence|done].
Qed.

(** The score only depends on the partition. *)
Lemma tables_group c a (g : Z -> R) : holds_seating c a ->
  sum_map (fun t (s : gset Z) => INR (size s) * g t) (crp_tables c) = sum_map (fun _ t => g t) a.
Proof.
  intros [_ _ Ht]. revert Ht. generalize (crp_tables c) as m. clear c.
  induction a as [|i t a Hi IH] using map_ind; intros m Hm.
  - assert (m = ∅) as ->.
    { apply map_eq. intros t. rewrite Hm, customers_at_empty, lookup_empty. by rewrite decide_True. }
    by rewrite !sum_map_empty.
  - rewrite sum_map_insert by done.
    pose proof (Hm t) as Hmt. rewrite customers_at_insert_eq in Hmt by done.
    rewrite decide_False in Hmt by set_solver.
    assert (i ∉ customers_at a t) as Hni by (rewrite elem_of_customers_at; congruence).
    destruct (decide (customers_at a t = ∅)) as [He|Hne].
    + rewrite (sum_map_delete _ _ _ _ Hmt). rewrite He, union_empty_r_L, size_singleton.
      rewrite <- (IH (delete t m)); [simpl; lra|].
      intros t'. destruct (decide (t = t')) as [<-|Hn].
      * rewrite lookup_delete, decide_True; done.
      * rewrite lookup_delete_ne by done. rewrite Hm, customers_at_insert_ne by done. done.
    + rewrite <- (IH (<[t := customers_at a t]> m)).
      * rewrite (sum_map_update _ _ _ _ _ Hmt). rewrite size_union by set_solver.
        rewrite size_singleton, plus_INR. simpl. lra.
      * intros t'. destruct (decide (t = t')) as [<-|Hn].
        -- rewrite lookup_insert, decide_False; done.
        -- rewrite lookup_insert_ne by done. rewrite Hm, customers_at_insert_ne by done. done.
Qed.

Lemma tables_sum_by_customer c a (f : nat -> R) : holds_seating c a ->
  sum_map (fun _ (s : gset Z) => f (size s)) (crp_tables c) =
  sum_map (fun _ t => f (size (customers_at a t)) / INR (size (customers_at a t))) a.
Proof.
  intros H. rewrite <- (tables_group c a (fun t => f (size (customers_at a t)) / INR (size (customers_at a t))) H).
  apply sum_map_ext. intros t s Hs. rewrite (hs_tables _ _ H) in Hs.
  destruct (decide (customers_at a t = ∅)) as [He|Hne]; [done|]. injection Hs as <-.
  pose proof (INR_size_pos _ Hne). field. lra.
Qed.

Lemma same_partition_customers a1 a2 i t1 t2 :
  same_partition a1 a2 -> a1 !! i = Some t1 -> a2 !! i = Some t2 ->
  customers_at a1 t1 = customers_at a2 t2.
Proof.
  intros [Hd Hp] H1 H2. apply set_eq. intros j. rewrite !elem_of_customers_at.
  assert (i ∈ dom a1) as Hi by (apply elem_of_dom; eauto).
  split; intros Hj.
  - assert (j ∈ dom a1) as Hjd by (apply elem_of_dom; eauto).
    rewrite <- H2. symmetry. apply (Hp i j Hi Hjd). congruence.
  - assert (j ∈ dom a1) as Hjd by (rewrite Hd; apply elem_of_dom; eauto).
    rewrite <- H1. symmetry. apply (Hp i j Hi Hjd). congruence.
Qed.

Lemma sum_map_same_dom {A B} (f : Z -> A -> R) (g : Z -> B -> R) (m1 : gmap Z A) (m2 : gmap Z B) :
  (dom m1 : gset Z) = dom m2 ->
  (forall k v1 v2, m1 !! k = Some v1 -> m2 !! k = Some v2 -> f k v1 = g k v2) ->
  sum_map f m1 = sum_map g m2.
Proof.
  revert m2. induction m1 as [|k v m1 Hk IH] using map_ind; intros m2 Hd Hfg.
  - rewrite dom_empty_L in Hd. symmetry in Hd. apply dom_empty_inv_L in Hd as ->.
    by rewrite !sum_map_empty.
  - rewrite dom_insert_L in Hd.
    assert (k ∈ (dom m2 : gset Z)) as [v2 Hv2]%elem_of_dom by set_solver.
    rewrite (sum_map_delete g m2 k v2 Hv2), sum_map_insert by done.
    rewrite (Hfg k v v2) by (rewrite ?lookup_insert; done). f_equal. apply IH.
    + rewrite dom_delete_L. assert (k ∉ (dom m1 : gset Z)) by by apply not_elem_of_dom.
      set_solver.
    + intros k' v1 v2' H1 H2. apply lookup_delete_Some in H2 as [Hne H2].
      apply (Hfg k'); [|done]. by rewrite lookup_insert_ne.
Qed.

Lemma sum_map_const1 {A} (m : gmap Z A) : sum_map (fun _ _ => 1) m = INR (size m).
Proof.
  induction m as [|k v m Hk IH] using map_ind.
  - by rewrite sum_map_empty, map_size_empty.
  - rewrite sum_map_insert, map_size_insert_None by done. rewrite IH, S_INR. lra.
Qed.

Lemma score_same_partition lg c1 c2 a1 a2 :
  holds_seating c1 a1 -> holds_seating c2 a2 -> crp_alpha c1 = crp_alpha c2 ->
  same_partition a1 a2 -> crp_logp_score lg c1 = crp_logp_score lg c2.
Proof.
  intros H1 H2 Hal Hp. rewrite !score_alt, Hal.
  rewrite (INR_N c1 a1 H1), (INR_N c2 a2 H2).
  assert (size a1 = size a2) as Hsz by (rewrite <- !size_dom; destruct Hp as [-> _]; done).
  assert (forall f : nat -> R, sum_map (fun _ (s : gset Z) => f (size s)) (crp_tables c1) =
    sum_map (fun _ (s : gset Z) => f (size s)) (crp_tables c2)) as Hf.
  { intros f. rewrite (tables_sum_by_customer c1 a1 f H1), (tables_sum_by_customer c2 a2 f H2).
    apply sum_map_same_dom; [apply Hp|]. intros k t1 t2 Hk1 Hk2.
    by rewrite (same_partition_customers a1 a2 k t1 t2 Hp Hk1 Hk2). }
  unfold tables_lg. rewrite (Hf (fun n => lg (INR n))).
  rewrite <- !sum_map_const1. rewrite (Hf (fun _ => 1)). rewrite !sum_map_const1, Hsz. done.
Qed.

Lemma exchangeable lg alpha i1 t1 l1 i2 t2 l2 d1 d2 s1 s2 c1 c2 :
  is_lgamma lg -> 0 < alpha ->
  crp_incorporate (Crp alpha 0 ∅ ∅) i1 t1 = Ok d1 -> seat_scored d1 l1 = Ok (Some s1, c1) ->
  crp_incorporate (Crp alpha 0 ∅ ∅) i2 t2 = Ok d2 -> seat_scored d2 l2 = Ok (Some s2, c2) ->
  same_partition (crp_assignments c1) (crp_assignments c2) ->
  s1 = s2 /\ s1 = crp_logp_score lg c1.
Proof.
  intros Hlg Hal Hd1 Hs1 Hd2 Hs2 Hp.
  assert (holds_seating (Crp alpha 0 ∅ ∅) ∅) as H0.
  { split; simpl; [done|by rewrite map_size_empty|].
    intros t. rewrite lookup_empty, customers_at_empty, decide_True by done. done. }
  assert (forall i t l d s c, crp_incorporate (Crp alpha 0 ∅ ∅) i t = Ok d ->
    seat_scored d l = Ok (Some s, c) ->
    s = crp_logp_score lg c /\ crp_alpha c = alpha /\ exists a, holds_seating c a) as Hone.
  { intros i t l d s c Hd Hs.
    destruct (incorporate_tables _ ∅ i t d H0 Hd) as (_ & Hh & Hald & _). simpl in Hald.
    pose proof (chain_rule_new lg _ ∅ i t d Hlg H0 Hal (customers_at_empty t) Hd) as Hc.
    unfold crp_logp_new_table in Hc. simpl in Hc. rewrite Rplus_0_l in Hc.
    assert (crp_logp_score lg (Crp alpha 0 ∅ ∅) = 0) as Hz.
    { rewrite score_alt. simpl. rewrite map_size_empty. unfold tables_lg. rewrite sum_map_empty.
      simpl. rewrite Rplus_0_l. lra. }
    destruct (seat_scored_score lg d (<[i:=t]> ∅) l s c) as (-> & Hal2 & Hex); try done.
    - intros He. apply (f_equal (fun m : gmap Z Z => m !! i)) in He. by rewrite lookup_insert, lookup_empty in He.
    - by rewrite Hald.
    - split; [lra|]. split; [congruence|done]. }
  destruct (Hone _ _ _ _ _ _ Hd1 Hs1) as (-> & Ha1 & a1 & Hh1).
  destruct (Hone _ _ _ _ _ _ Hd2 Hs2) as (-> & Ha2 & a2 & Hh2).
  split; [|done]. rewrite (hs_assign _ _ Hh1), (hs_assign _ _ Hh2) in Hp.
  eapply score_same_partition; eauto. congruence.
Qed.

(** * C05 *)
Lemma gibbs_weights c a i t :
  holds_seating c a -> a !! i = Some t ->
  exists w tnew, crp_tables_weights_gibbs c t = Ok w /\
    customers_at (delete i a) tnew = ∅ /\
    (customers_at a t = {[i]} -> tnew = t) /\
    (forall t', w !! t' =
      if decide (customers_at (delete i a) t' = ∅)
      then (if decide (t' = tnew) then Some (crp_alpha c) else None)
      else Some (INR (size (customers_at (delete i a) t')))) /\
    sum_map (fun _ x => x) w = INR (size a) - 1 + crp_alpha c.
Proof.
  intros H Hi.
  assert (a <> ∅) as Ha by (intros ->; by rewrite lookup_empty in Hi).
  destruct (tables_weights_spec c a H Ha) as (w & tnew & Hw & Hnew & Hlt & Hlk).
  assert (i ∈ customers_at a t) as Hin by by apply elem_of_customers_at.
  assert (customers_at a t <> ∅) as Hne by set_solver.
  assert (w !! t = Some (INR (size (customers_at a t)))) as Hwt by by rewrite Hlk, decide_False.
  pose proof (tables_weights_sum c a w H Ha Hw) as Hsum.
  assert (forall t', t' <> t -> customers_at (delete i a) t' = customers_at a t') as Hother.
  { intros t' Hn. rewrite customers_at_delete. apply set_eq. intros j.
    rewrite elem_of_difference, elem_of_singleton, !elem_of_customers_at. naive_solver. }
  assert (size (customers_at a t) = S (size (customers_at (delete i a) t))) as Hsz.
  { rewrite customers_at_delete. rewrite size_difference by set_solver.
    rewrite size_singleton. pose proof (gset_size_ne0 _ Hne). lia. }
  unfold crp_tables_weights_gibbs. rewrite bool_decide_eq_true_2.
  2:{ rewrite (hs_N _ _ H). assert (size a <> 0%nat) by by rewrite map_size_non_empty_iff. lia. }
  rewrite bool_decide_eq_true_2.
  2:{ rewrite (hs_tables _ _ H), decide_False; [eauto|done]. }
  simpl. rewrite Hw. simpl. rewrite Hwt. simpl. rewrite Hsz, S_INR.
  destruct (Req_EM_T _ 0) as [Hz|Hnz].
  - assert (size (customers_at (delete i a) t) = 0%nat) as Hz'.
    { apply INR_eq. simpl. lra. }
    apply size_empty_inv in Hz'. fold_leibniz.
    assert (tnew <> t) as Htn by (intros ->; done).
    assert (max_key (<[t:=crp_alpha c]> w) = Some tnew) as Hmax.
    { apply max_key_Some. split.
      - rewrite lookup_insert_ne by done. rewrite Hlk, decide_True, decide_True by done. eauto.
      - intros k' Hk'. destruct (decide (k' = t)) as [->|Hk].
        + apply Hlt in Hne. lia.
        + rewrite lookup_insert_ne in Hk' by done. rewrite Hlk in Hk'.
          destruct (decide (customers_at a k' = ∅)) as [He|Hn2].
          * destruct (decide (k' = tnew)) as [->|]; [lia|]. by destruct Hk'.
          * apply Hlt in Hn2. lia. }
    rewrite Hmax. simpl. exists (delete tnew (<[t:=crp_alpha c]> w)), t.
    split; [done|]. split; [done|]. split; [done|]. split.
    + intros t'. destruct (decide (t' = tnew)) as [->|Hn].
      * rewrite lookup_delete. rewrite Hother by done.
        by rewrite decide_True, decide_False by done.
      * rewrite lookup_delete_ne by done. destruct (decide (t' = t)) as [->|Hn2].
        -- rewrite lookup_insert. rewrite decide_True by done. done.
        -- rewrite lookup_insert_ne by done. rewrite Hother, Hlk by done.
           destruct (decide (customers_at a t' = ∅)); [|done]. by rewrite decide_False.
    + assert ((<[t:=crp_alpha c]> w) !! tnew = Some (crp_alpha c)) as Hl.
      { rewrite lookup_insert_ne by done. by rewrite Hlk, decide_True, decide_True. }
      pose proof (sum_map_delete (fun _ x => x) _ _ _ Hl) as Hd.
      rewrite (sum_map_update _ _ _ _ _ Hwt), Hsum, Hsz, S_INR in Hd.
      rewrite Hz', size_empty in Hd. simpl in Hd. lra.
  - assert (customers_at (delete i a) t <> ∅) as Hne'.
    { intros He. rewrite He, size_empty in Hnz. simpl in Hnz. lra. }
    eexists _, tnew. split; [done|]. split.
    { rewrite Hother; [done|]. intros ->; done. }
    split.
    { intros Hsing. exfalso. apply Hne'. rewrite customers_at_delete, Hsing. set_solver. }
    split.
    + intros t'. destruct (decide (t' = t)) as [->|Hn2].
      * rewrite lookup_insert, decide_False by done. f_equal. lra.
      * rewrite lookup_insert_ne by done. by rewrite Hother, Hlk.
    + rewrite (sum_map_update _ _ _ _ _ Hwt), Hsum, Hsz, S_INR. lra.
Qed.

(** * C06 *)
Lemma transition_alpha_spec lg c a r :
  holds_seating c a ->
  exists c' r', crp_transition_alpha lg c r = Ok (c', r') /\
    crp_N c' = crp_N c /\ crp_tables c' = crp_tables c /\ crp_assignments c' = crp_assignments c /\
    (a = ∅ -> c' = c) /\
    (a <> ∅ -> 1 / INR (size a) <= crp_alpha c' <= INR (size a) + 1).
Proof.
  intros H. unfold crp_transition_alpha. destruct (decide (a = ∅)) as [He|Hne].
  - rewrite bool_decide_eq_true_2 by by apply (N_zero_iff c a H).
    exists c, r. repeat split; done.
  - rewrite bool_decide_eq_false_2 by by rewrite (N_zero_iff c a H).
    rewrite (INR_N c a H).
    assert (1 <= INR (size a)) as Hpos.
    { change 1 with (INR 1). apply le_INR. assert (size a <> 0%nat) by by rewrite map_size_non_empty_iff. lia. }
    destruct (log_linspace (1 / INR (size a)) (INR (size a) + 1) 20 true) as [grid| | | | |] eqn:Eg;
      try (rewrite log_linspace_Ok in Eg by lia; done).
    assert (length grid = 20%nat) as Hlen.
    { eapply log_linspace_length; [|done]. lia. }
    simpl. destruct (log_choice_spec (map (fun g => Some (crp_logp_score lg (crp_set_alpha c g))) grid) r)
      as (i & r' & -> & Hi).
    { destruct grid as [|g grid]; [done|]. eexists. simpl. left. }
    rewrite map_length in Hi. simpl.
    destruct (lookup_lt_is_Some_2 grid i Hi) as [al Hal]. rewrite Hal. simpl.
    exists (crp_set_alpha c al), r'. repeat split; try done.
    all: assert (0 < 1 / INR (size a)) as Hp by (apply Rdiv_lt_0_compat; lra).
    all: assert (1 / INR (size a) <= INR (size a) + 1) as Hle.
    all: try (apply Rmult_le_reg_r with (INR (size a)); [lra|];
      unfold Rdiv; rewrite Rmult_assoc, Rinv_l by lra; nra).
    all: pose proof (log_linspace_bounds _ _ 20 grid ltac:(lia) Hp Hle Eg) as HF.
    all: rewrite Forall_lookup in HF; apply HF in Hal; simpl; lra.
Qed.

(** Every history keeps a valid seating and a positive concentration. *)
Lemma crp_event_history lg c a es :
  holds_seating c a -> 0 < crp_alpha c ->
  match seat_run a (crp_requests es) with
  | Some a' => exists c', foldM (crp_event_do lg) c es = Ok c' /\ holds_seating c' a' /\ 0 < crp_alpha c'
  | None => foldM (crp_event_do lg) c es = AssertFail
  end.
Proof.
  revert c a. induction es as [|e es IH]; intros c a H Hal; simpl; [eauto|].
  destruct e as [o|r]; simpl.
  - pose proof (holds_do c a o H) as Hd. destruct (seat_step a o) as [a'|].
    + destruct Hd as (c' & -> & Hc' & Hal'). simpl. apply IH; [done|]. by rewrite Hal'.
    + by rewrite Hd.
  - destruct (transition_alpha_spec lg c a r H) as (c' & r' & -> & HN & HT & HA & He & Hne). simpl.
    apply IH.
    + destruct H as [H1 H2 H3]. split; [congruence|congruence|]. intros t. by rewrite HT.
    + destruct (decide (a = ∅)) as [Ha|Ha]; [by rewrite (He Ha)|].
      destruct (Hne Ha) as [Hl _].
      assert (0 < INR (size a)) as Hpos.
      { apply lt_0_INR. assert (size a <> 0%nat) by by rewrite map_size_non_empty_iff. lia. }
      assert (0 < 1 / INR (size a)) by (apply Rdiv_lt_0_compat; lra). lra.
Qed.

(** * The empty CRP after resampling (refutation of C03/C04 at N = 0) *)
Definition bad_history : list crp_event :=
  [Request (Seat 0 0); ResampleAlpha [19%nat]; Request (Unseat 0)].

Lemma bad_history_state lg :
  exists c, foldM (crp_event_do lg) crp_new bad_history = Ok c /\
    holds_seating c ∅ /\ crp_alpha c = 2.
Proof.
  unfold bad_history. simpl.
  destruct (holds_incorporate crp_new ∅ 0 0 holds_new) as (c1 & Hc1 & Hh1 & Hal1); [done|].
  rewrite Hc1. simpl.
  assert (size (<[0%Z:=0%Z]> (∅ : gmap Z Z)) = 1%nat) as Hsz.
  { rewrite map_size_insert_None by done. by rewrite map_size_empty. }
  assert (exists r', crp_transition_alpha lg c1 [19%nat] = Ok (crp_set_alpha c1 2, r')) as [r' Hr'].
  { unfold crp_transition_alpha. rewrite bool_decide_eq_false_2.
    2:{ rewrite (hs_N _ _ Hh1), Hsz. lia. }
    rewrite (INR_N c1 _ Hh1), Hsz.
    destruct (log_linspace (1 / INR 1) (INR 1 + 1) 20 true) as [grid| | | | |] eqn:Eg;
      try (rewrite log_linspace_Ok in Eg by lia; done).
    assert (length grid = 20%nat) as Hlen by (eapply log_linspace_length; [|done]; lia).
    apply log_linspace_ends in Eg as [_ Eg]; [|lia|simpl; lra|simpl; lra].
    simpl obind. destruct (log_normalize_spec (map (fun g => Some (crp_logp_score lg (crp_set_alpha c1 g))) grid))
      as (vs & Hvs & Hl & _).
    { destruct grid; [done|]. eexists. left. }
    unfold log_choice. rewrite Hvs. simpl obind. rewrite map_length, Hlen in Hl. rewrite Hl.
    simpl. simpl in Eg. rewrite Eg. replace (1 + 1) with 2 by lra.
    simpl. eauto. }
  rewrite Hr'. simpl.
  assert (holds_seating (crp_set_alpha c1 2) (<[0%Z:=0%Z]> ∅)) as Hh2.
  { destruct Hh1 as [H1 H2 H3]. split; done. }
  destruct (holds_unincorporate _ _ 0%Z 0%Z Hh2) as (c3 & -> & Hh3 & Hal3); [done|].
  simpl. exists c3. split; [done|]. split; [|done]. by rewrite delete_insert in Hh3.
Qed.

Lemma empty_crp_refuted lg :
  is_lgamma lg ->
  exists es c w, foldM (crp_event_do lg) crp_new es = Ok c /\
    crp_tables_weights c = Ok w /\
    sum_map (fun t _ => match crp_logp c t with Ok l => eexp l | _ => 0 end) w <> 1 /\
    exists i t l c', crp_logp c t = Ok (Some l) /\ crp_incorporate c i t = Ok c' /\
      crp_logp_score lg c' - crp_logp_score lg c <> l.
Proof.
  intros Hlg. destruct (bad_history_state lg) as (c & Hc & Hh & Hal).
  assert (crp_N c = 0%Z) as HN by by apply (N_zero_iff c ∅ Hh).
  assert (crp_tables_weights c = Ok {[0%Z := 1]}) as Hw.
  { unfold crp_tables_weights. by rewrite bool_decide_eq_true_2. }
  assert (crp_logp c 0 = Ok (Some (- ln 2))) as Hl.
  { unfold crp_logp. rewrite Hw. simpl. rewrite lookup_singleton, HN, Hal. do 2 f_equal.
    rewrite ln_1, Rplus_0_l. lra. }
  exists bad_history, c, {[0%Z := 1]}. split; [done|]. split; [done|].
  assert (0 < ln 2) as Hln2 by (rewrite <- ln_1; apply ln_increasing; lra).
  split.
  - rewrite <- insert_empty, sum_map_insert, sum_map_empty by done. rewrite Hl. simpl.
    rewrite exp_Ropp, exp_ln by lra. lra.
  - destruct (holds_incorporate c ∅ 0 0 Hh) as (c' & Hc' & _); [done|].
    exists 0%Z, 0%Z, (- ln 2), c'. repeat split; try done.
    rewrite (chain_rule_new lg c ∅ 0 0 c') by (try done; try (by rewrite Hal; lra); apply customers_at_empty).
    unfold crp_logp_new_table. rewrite HN, Hal, Rplus_0_l. lra.
Qed.
