From stdpp Require Import gmap sorting.
From Coq Require Import ZArith Reals Lra Lia.
From Verif Require Import M_base M_math M_crp S_crp S_crp_state S_math P_base P_math P_sum.

(** * customers_at *)
Lemma elem_of_customers_at a t i : i ∈ customers_at a t <-> a !! i = Some t.
Proof.
  unfold customers_at. rewrite elem_of_dom. split.
  - intros [t' Ht']. apply map_filter_lookup_Some in Ht' as [H1 H2]. simpl in H2. congruence.
  - intros H. exists t. by apply map_filter_lookup_Some.
Qed.

Lemma customers_at_empty t : customers_at ∅ t = ∅.
Proof. apply set_eq. intros i. rewrite elem_of_customers_at, lookup_empty. set_solver. Qed.

Lemma customers_at_insert a i t t' : a !! i = None ->
  customers_at (<[i := t]> a) t' =
    if decide (t = t') then {[i]} ∪ customers_at a t' else customers_at a t'.
Proof.
  intros Hi. apply set_eq. intros j. rewrite elem_of_customers_at, lookup_insert_Some.
  destruct (decide (t = t')) as [<-|Hne].
  - rewrite elem_of_union, elem_of_singleton, elem_of_customers_at. split.
    + naive_solver.
    + intros [->|Hj]; [naive_solver|]. right. split; [|done]. intros ->; congruence.
  - rewrite elem_of_customers_at. split; [naive_solver|].
    intros Hj. right. split; [|done]. intros ->; congruence.
Qed.

Lemma customers_at_insert_eq a i t : a !! i = None ->
  customers_at (<[i := t]> a) t = {[i]} ∪ customers_at a t.
Proof. intros. rewrite customers_at_insert by done. by rewrite decide_True. Qed.
Lemma customers_at_insert_ne a i t t' : a !! i = None -> t <> t' ->
  customers_at (<[i := t]> a) t' = customers_at a t'.
Proof. intros. rewrite customers_at_insert by done. by rewrite decide_False. Qed.

Lemma customers_at_delete a i t : customers_at (delete i a) t = customers_at a t ∖ {[i]}.
Proof.
  apply set_eq. intros j.
  rewrite elem_of_difference, elem_of_singleton, !elem_of_customers_at, lookup_delete_Some.
  naive_solver.
Qed.

(** * Bookkeeping *)
Lemma holds_new : holds_seating crp_new ∅.
Proof.
  split; simpl; [done|by rewrite map_size_empty|].
  intros t. rewrite lookup_empty, customers_at_empty, decide_True by done. done.
Qed.

Lemma holds_incorporate c a i t :
  holds_seating c a -> a !! i = None ->
  exists c', crp_incorporate c i t = Ok c' /\ holds_seating c' (<[i := t]> a) /\ crp_alpha c' = crp_alpha c.
Proof.
  intros [Ha HN Ht] Hi. unfold crp_incorporate. rewrite Ha.
  rewrite bool_decide_eq_true_2 by done. simpl.
  set (tables1 := match crp_tables c !! t with
    | Some _ => crp_tables c | None => <[t:=∅]> (crp_tables c) end).
  assert (tables1 !! t = Some (customers_at a t)) as Ht1.
  { subst tables1. pose proof (Ht t) as Htt. destruct (crp_tables c !! t) eqn:E.
    - rewrite E. rewrite Htt. destruct (decide _); congruence.
    - rewrite lookup_insert. destruct (decide _) as [->|]; congruence. }
  rewrite Ht1. simpl. eexists. split; [done|]. split; [|done]. split; simpl.
  - done.
  - rewrite map_size_insert_None by done. lia.
  - intros t'. rewrite customers_at_insert by done. destruct (decide (t = t')) as [<-|Hne].
    + rewrite lookup_insert. rewrite decide_False; [done|]. set_solver.
    + rewrite lookup_insert_ne by done. rewrite <- Ht. subst tables1.
      destruct (crp_tables c !! t) eqn:E; [done|]. by rewrite lookup_insert_ne.
Qed.

Lemma holds_incorporate_assert c a i t :
  holds_seating c a -> is_Some (a !! i) -> crp_incorporate c i t = AssertFail.
Proof.
  intros [Ha HN Ht] [t' Hi]. unfold crp_incorporate. rewrite Ha.
  rewrite bool_decide_eq_false_2 by congruence. done.
Qed.

Lemma holds_unincorporate c a i t :
  holds_seating c a -> a !! i = Some t ->
  exists c', crp_unincorporate c i = Ok c' /\ holds_seating c' (delete i a) /\ crp_alpha c' = crp_alpha c.
Proof.
  intros [Ha HN Ht] Hi. unfold crp_unincorporate. rewrite Ha, Hi.
  rewrite bool_decide_eq_true_2 by eauto. simpl.
  assert (i ∈ customers_at a t) as Hin by by apply elem_of_customers_at.
  rewrite Ht. rewrite decide_False by set_solver. simpl.
  eexists. split; [done|]. split; [|done]. split; simpl.
  - done.
  - rewrite map_size_delete_Some by eauto. rewrite HN.
    assert (size a <> 0) by (rewrite map_size_non_empty_iff; intros ->; set_solver).
    lia.
  - intros t'. rewrite customers_at_delete.
    destruct (bool_decide (customers_at a t ∖ {[i]} = ∅)) eqn:Eb.
    + apply bool_decide_eq_true in Eb. destruct (decide (t' = t)) as [->|Hne].
      * rewrite lookup_delete. by rewrite decide_True.
      * rewrite lookup_delete_ne by done. rewrite Ht.
        assert (customers_at a t' ∖ {[i]} = customers_at a t') as ->; [|done].
        apply set_eq. intros j. rewrite elem_of_difference, elem_of_singleton, !elem_of_customers_at.
        naive_solver.
    + apply bool_decide_eq_false in Eb. destruct (decide (t' = t)) as [->|Hne].
      * rewrite lookup_insert. by rewrite decide_False.
      * rewrite lookup_insert_ne by done. rewrite Ht.
        assert (customers_at a t' ∖ {[i]} = customers_at a t') as ->; [|done].
        apply set_eq. intros j. rewrite elem_of_difference, elem_of_singleton, !elem_of_customers_at.
        naive_solver.
Qed.

Lemma holds_unincorporate_assert c a i :
  holds_seating c a -> a !! i = None -> crp_unincorporate c i = AssertFail.
Proof.
  intros [Ha HN Ht] Hi. unfold crp_unincorporate. rewrite Ha, Hi.
  rewrite bool_decide_eq_false_2; [done|]. intros [? ?]; congruence.
Qed.

Lemma holds_do c a o :
  holds_seating c a ->
  match seat_step a o with
  | Some a' => exists c', crp_do c o = Ok c' /\ holds_seating c' a' /\ crp_alpha c' = crp_alpha c
  | None => crp_do c o = AssertFail
  end.
Proof.
  intros H. destruct o as [i t|i]; simpl.
  - destruct (a !! i) eqn:E; [by eapply holds_incorporate_assert; eauto|by apply holds_incorporate].
  - destruct (a !! i) eqn:E; [by eapply holds_unincorporate|by eapply holds_unincorporate_assert].
Qed.

Lemma crp_history c a ops :
  holds_seating c a ->
  match seat_run a ops with
  | Some a' => exists c', foldM crp_do c ops = Ok c' /\ holds_seating c' a'
  | None => foldM crp_do c ops = AssertFail
  end.
Proof.
  revert c a. induction ops as [|o ops IH]; intros c a H; simpl; [eauto|].
  pose proof (holds_do c a o H) as Hd. destruct (seat_step a o) as [a'|].
  - destruct Hd as (c' & -> & Hc' & _). simpl. by apply IH.
  - by rewrite Hd.
Qed.

Lemma holds_unique c c' a :
  holds_seating c a -> holds_seating c' a -> crp_alpha c = crp_alpha c' -> c = c'.
Proof.
  intros [H1 H2 H3] [H1' H2' H3'] Ha. destruct c, c'; simpl in *. f_equal; try congruence.
  apply map_eq. intros t. by rewrite H3, H3'.
Qed.

Lemma incorporate_unincorporate c a i t c' :
  holds_seating c a -> crp_incorporate c i t = Ok c' -> crp_unincorporate c' i = Ok c.
Proof.
  intros H Hc'. destruct (a !! i) eqn:E.
  { rewrite (holds_incorporate_assert c a i t) in Hc' by eauto. done. }
  destruct (holds_incorporate c a i t H E) as (c2 & Hc2 & Hh & Hal).
  rewrite Hc' in Hc2. injection Hc2 as <-.
  destruct (holds_unincorporate c' _ i t Hh) as (c3 & Hc3 & Hh3 & Hal3); [by rewrite lookup_insert|].
  rewrite Hc3. f_equal. rewrite delete_insert in Hh3 by done.
  eapply holds_unique; eauto. congruence.
Qed.

Lemma unincorporate_incorporate c a i t c' :
  holds_seating c a -> crp_assignments c !! i = Some t ->
  crp_unincorporate c i = Ok c' -> crp_incorporate c' i t = Ok c.
Proof.
  intros H Hi Hc'. rewrite (hs_assign _ _ H) in Hi.
  destruct (holds_unincorporate c a i t H Hi) as (c2 & Hc2 & Hh & Hal).
  rewrite Hc' in Hc2. injection Hc2 as <-.
  destruct (holds_incorporate c' _ i t Hh) as (c3 & Hc3 & Hh3 & Hal3); [by rewrite lookup_delete|].
  rewrite Hc3. f_equal. rewrite insert_delete in Hh3 by done.
  eapply holds_unique; eauto. congruence.
Qed.

(** * Table sizes add up to the number of customers *)
Lemma tables_sum c a : holds_seating c a ->
  sum_map (fun _ (s : gset Z) => INR (size s)) (crp_tables c) = INR (size a).
Proof.
  intros [_ _ Ht]. revert Ht. generalize (crp_tables c) as m. clear c.
  induction a as [|i t a Hi IH] using map_ind; intros m Hm.
  - assert (m = ∅) as ->.
    { apply map_eq. intros t. rewrite Hm, customers_at_empty, lookup_empty. by rewrite decide_True. }
    rewrite sum_map_empty, map_size_empty. done.
  - rewrite map_size_insert_None by done. rewrite S_INR.
    pose proof (Hm t) as Hmt. rewrite customers_at_insert_eq in Hmt by done.
    rewrite decide_False in Hmt by set_solver.
    assert (i ∉ customers_at a t) as Hni by (rewrite elem_of_customers_at; congruence).
    destruct (decide (customers_at a t = ∅)) as [He|Hne].
    + rewrite (sum_map_delete _ _ _ _ Hmt). rewrite He, union_empty_r_L, size_singleton.
      rewrite <- (IH (delete t m)); [simpl; lra|].
      intros t'. destruct (decide (t = t')) as [<-|Hn].
      * rewrite lookup_delete, decide_True; done.
      * rewrite lookup_delete_ne by done. rewrite Hm, customers_at_insert_ne by done. done.
    + rewrite <- (IH (<[t := customers_at a t]> m)).
      * rewrite (sum_map_update _ _ _ _ _ Hmt). rewrite size_union by set_solver.
        rewrite size_singleton, plus_INR. simpl. lra.
      * intros t'. destruct (decide (t = t')) as [<-|Hn].
        -- rewrite lookup_insert, decide_False; done.
        -- rewrite lookup_insert_ne by done. rewrite Hm, customers_at_insert_ne by done. done.
Qed.

(** * Weights *)
Lemma N_zero_iff c a : holds_seating c a -> crp_N c = 0%Z <-> a = ∅.
Proof.
  intros H. rewrite (hs_N _ _ H). rewrite <- map_size_empty_iff. lia.
Qed.

Lemma tables_nonempty c a : holds_seating c a -> a <> ∅ -> crp_tables c <> ∅.
Proof.
  intros H Ha He. apply Ha. apply map_eq. intros i. rewrite lookup_empty.
  destruct (a !! i) as [t|] eqn:E; [|done]. exfalso.
  apply elem_of_customers_at in E. pose proof (hs_tables _ _ H t) as Ht.
  rewrite He, lookup_empty in Ht. destruct (decide _); [set_solver|done].
Qed.

Lemma max_table_spec c a : holds_seating c a -> a <> ∅ ->
  exists m, crp_max_table c = Ok m /\ customers_at a m <> ∅ /\
    forall t, customers_at a t <> ∅ -> (t <= m)%Z.
Proof.
  intros H Ha. unfold crp_max_table. rewrite bool_decide_eq_false_2 by by rewrite N_zero_iff.
  destruct (max_key_exists (crp_tables c)) as [m Hm]; [by eapply tables_nonempty|].
  exists m. rewrite Hm. split; [done|]. apply max_key_Some in Hm as [Hm1 Hm2].
  assert (forall t, is_Some (crp_tables c !! t) <-> customers_at a t <> ∅) as Hiff.
  { intros t. rewrite (hs_tables _ _ H). destruct (decide _); split; intros Hx; try done. by destruct Hx. }
  split; [by apply Hiff|]. intros t Ht. apply Hm2. by apply Hiff.
Qed.

Lemma tables_weights_spec c a : holds_seating c a -> a <> ∅ ->
  exists w tnew, crp_tables_weights c = Ok w /\
    customers_at a tnew = ∅ /\
    (forall t, customers_at a t <> ∅ -> (t < tnew)%Z) /\
    forall t, w !! t =
      if decide (customers_at a t = ∅)
      then (if decide (t = tnew) then Some (crp_alpha c) else None)
      else Some (INR (size (customers_at a t))).
Proof.
  intros H Ha. unfold crp_tables_weights. rewrite bool_decide_eq_false_2 by by rewrite N_zero_iff.
  destruct (max_table_spec c a H Ha) as (m & -> & Hm & Hmax). simpl.
  assert (customers_at a (m + 1) = ∅) as Hnew.
  { destruct (decide (customers_at a (m + 1) = ∅)) as [|Hne]; [done|].
    apply Hmax in Hne. lia. }
  eexists _, (m + 1)%Z. split; [done|]. split; [done|].
  split. { intros t Hlt. apply Hmax in Hlt. lia. }
  intros t. destruct (decide (t = (m + 1)%Z)) as [->|Hne].
  - rewrite lookup_insert. by rewrite decide_True.
  - rewrite lookup_insert_ne by done. rewrite lookup_fmap, (hs_tables _ _ H).
    by destruct (decide (customers_at a t = ∅)).
Qed.

Lemma tables_weights_sum c a w : holds_seating c a -> a <> ∅ ->
  crp_tables_weights c = Ok w ->
  sum_map (fun _ x => x) w = (INR (size a) + crp_alpha c)%R.
Proof.
  intros H Ha Hw. unfold crp_tables_weights in Hw.
  rewrite bool_decide_eq_false_2 in Hw by by rewrite N_zero_iff.
  destruct (max_table_spec c a H Ha) as (m & Hm0 & Hm & Hmax). rewrite Hm0 in Hw. simpl in Hw.
  injection Hw as <-. rewrite sum_map_insert.
  - rewrite sum_map_fmap, (tables_sum c a H). lra.
  - rewrite lookup_fmap, (hs_tables _ _ H). rewrite decide_True; [done|].
    destruct (decide (customers_at a (m + 1) = ∅)) as [|Hne]; [done|].
    apply Hmax in Hne. lia.
Qed.
