From stdpp Require Import gmap sorting.
From Coq Require Import ZArith Reals Lra Lia.
From Verif Require Import M_base M_math M_crp M_domain S_crp S_crp_state P_base P_crp.

Lemma domain_holds_new : domain_holds dom_new ∅.
Proof. split; simpl; [by rewrite dom_empty_L|apply holds_new]. Qed.

(** Sampling a table always succeeds and yields an offered table. *)
Lemma crp_sample_spec c a r :
  holds_seating c a ->
  exists t r' w, crp_sample c r = Ok (t, r') /\ crp_tables_weights c = Ok w /\ is_Some (w !! t).
Proof.
  intros H. unfold crp_sample.
  assert (exists w, crp_tables_weights c = Ok w /\ w <> ∅) as (w & Hw & Hne).
  { destruct (decide (a = ∅)) as [Ha|Ha].
    - unfold crp_tables_weights. rewrite bool_decide_eq_true_2 by by apply (N_zero_iff c a H).
      eexists. split; [done|]. apply insert_non_empty.
    - destruct (tables_weights_spec c a H Ha) as (w & tnew & Hw & Hnew & _ & Hlk).
      exists w. split; [done|]. intros ->. specialize (Hlk tnew).
      rewrite lookup_empty in Hlk. by rewrite decide_True, decide_True in Hlk by done. }
  rewrite Hw. simpl.
  destruct (choose_index (length (sorted_keys w)) r) as [i r'] eqn:Ei.
  assert (i < length (sorted_keys w)) as Hi.
  { eapply choose_index_lt; [done|]. rewrite length_sorted_keys.
    by rewrite map_size_non_empty_iff. }
  destruct (lookup_lt_is_Some_2 _ _ Hi) as [t Ht]. rewrite Ht. simpl.
  exists t, r', w. split; [done|]. split; [done|].
  apply elem_of_sorted_keys. by eapply elem_of_list_lookup_2.
Qed.

Lemma crp_sample_nonneg c a r t r' :
  holds_seating c a -> (forall i u, a !! i = Some u -> 0 <= u)%Z ->
  crp_sample c r = Ok (t, r') -> (0 <= t)%Z.
Proof.
  intros H Hpos Hs. destruct (crp_sample_spec c a r H) as (t2 & r2 & w & Hs2 & Hw & [x Hx]).
  rewrite Hs in Hs2. injection Hs2 as <- <-.
  destruct (decide (a = ∅)) as [Ha|Ha].
  - unfold crp_tables_weights in Hw. rewrite bool_decide_eq_true_2 in Hw by by apply (N_zero_iff c a H).
    injection Hw as <-. apply lookup_singleton_Some in Hx as [<- _]. lia.
  - destruct (tables_weights_spec c a H Ha) as (w' & tnew & Hw' & Hnew & Hlt & Hlk).
    rewrite Hw in Hw'. injection Hw' as <-. rewrite Hlk in Hx.
    destruct (decide (customers_at a t = ∅)) as [He|Hne].
    + destruct (decide (t = tnew)) as [->|]; [|done].
      apply map_choose in Ha as (i & u & Hiu).
      assert (u < tnew)%Z.
      { apply Hlt. apply elem_of_customers_at in Hiu. set_solver. }
      apply Hpos in Hiu. lia.
    + apply set_choose_L in Hne as [i Hi]. apply elem_of_customers_at in Hi. eauto.
Qed.

Lemma dom_incorporate_known d a i r :
  domain_holds d a -> is_Some (a !! i) -> dom_incorporate d i (-1) r = Ok (d, r).
Proof.
  intros [Hd Hh] Hi. unfold dom_incorporate. rewrite bool_decide_eq_true_2; [done|].
  rewrite Hd. by apply elem_of_dom.
Qed.

Lemma dom_incorporate_new d a i table r :
  domain_holds d a -> a !! i = None ->
  exists d' t r', dom_incorporate d i table r = Ok (d', r') /\ domain_holds d' (<[i := t]> a) /\
    crp_alpha (dom_crp d') = crp_alpha (dom_crp d) /\
    (if decide (0 <= table)%Z then t = table
     else exists w, crp_tables_weights (dom_crp d) = Ok w /\ is_Some (w !! t)).
Proof.
  intros [Hd Hh] Hi. unfold dom_incorporate. rewrite bool_decide_eq_false_2.
  2:{ rewrite Hd. by apply not_elem_of_dom. }
  destruct (decide (0 <= table)%Z) as [Hpos|Hneg].
  - rewrite bool_decide_eq_true_2 by done. simpl.
    destruct (holds_incorporate _ a i table Hh Hi) as (c' & -> & Hc' & Hal). simpl.
    eexists _, table, _. split; [done|]. split; [|done]. split; [|done]. simpl.
    by rewrite dom_insert_L, Hd.
  - rewrite bool_decide_eq_false_2 by done.
    destruct (crp_sample_spec _ a r Hh) as (t & r' & w & -> & Hw & Hwt). simpl.
    destruct (holds_incorporate _ a i t Hh Hi) as (c' & -> & Hc' & Hal). simpl.
    eexists _, t, _. split; [done|]. split; [|split; [done|by exists w]]. split; [|done]. simpl.
    by rewrite dom_insert_L, Hd.
Qed.

Lemma dom_unincorporate_spec d a i :
  domain_holds d a -> is_Some (a !! i) ->
  exists d', dom_unincorporate d i = Ok d' /\ domain_holds d' (delete i a) /\
    crp_alpha (dom_crp d') = crp_alpha (dom_crp d).
Proof.
  intros [Hd Hh] [t Hi]. unfold dom_unincorporate. rewrite bool_decide_eq_true_2.
  2:{ rewrite Hd. apply elem_of_dom. eauto. }
  simpl. destruct (holds_unincorporate _ a i t Hh Hi) as (c' & -> & Hc' & Hal). simpl.
  eexists. split; [done|]. split; [|done]. split; [|done]. simpl. by rewrite dom_delete_L, Hd.
Qed.

Lemma dom_get_cluster_spec d a i :
  domain_holds d a ->
  dom_get_cluster d i = match a !! i with Some t => Ok t | None => AssertFail end.
Proof.
  intros [Hd Hh]. unfold dom_get_cluster. rewrite Hd, (hs_assign _ _ Hh).
  destruct (a !! i) as [t|] eqn:E.
  - rewrite bool_decide_eq_true_2 by (apply elem_of_dom; eauto). done.
  - rewrite bool_decide_eq_false_2 by by apply not_elem_of_dom. done.
Qed.

Lemma dom_set_cluster_spec d a i t t' :
  domain_holds d a -> a !! i = Some t -> t <> t' ->
  exists d', dom_set_cluster d i t' = Ok d' /\ domain_holds d' (<[i := t']> a) /\
    crp_alpha (dom_crp d') = crp_alpha (dom_crp d).
Proof.
  intros [Hd Hh] Hi Hne. unfold dom_set_cluster. rewrite Hd, (hs_assign _ _ Hh), Hi.
  rewrite bool_decide_eq_true_2 by (apply elem_of_dom; eauto). simpl.
  rewrite bool_decide_eq_true_2 by done. simpl.
  destruct (holds_unincorporate _ a i t Hh Hi) as (c' & -> & Hc' & Hal). simpl.
  destruct (holds_incorporate c' (delete i a) i t' Hc') as (c'' & -> & Hc'' & Hal''); [by rewrite lookup_delete|].
  simpl. eexists. split; [done|]. rewrite insert_delete_insert in Hc''.
  split; [|simpl; congruence]. split; [|done]. simpl. rewrite dom_insert_L, ?Hd.
  assert (i ∈ dom a) by (apply elem_of_dom; eauto). set_solver.
Qed.

Lemma dom_do_effect d a o d' :
  domain_holds d a -> dom_do d o = Ok d' ->
  exists a', domain_holds d' a' /\ dom_call_effect a a' o.
Proof.
  intros H Hd'. destruct o as [i t r|i|i t]; simpl in *.
  - destruct (a !! i) eqn:E.
    + unfold dom_incorporate in Hd'. rewrite bool_decide_eq_true_2 in Hd'.
      2:{ destruct H as [-> _]. apply elem_of_dom. eauto. }
      destruct (bool_decide _); simpl in Hd'; [|done]. injection Hd' as <-. eauto.
    + destruct (dom_incorporate_new d a i t r H E) as (d2 & t' & r' & Hd2 & Hh & _ & Ht).
      rewrite Hd2 in Hd'. simpl in Hd'. injection Hd' as <-. eexists. split; [done|].
      exists t'. split; [done|]. intros Hpos. by rewrite decide_True in Ht.
  - destruct (a !! i) eqn:E.
    + destruct (dom_unincorporate_spec d a i H) as (d2 & Hd2 & Hh & _); [eauto|].
      rewrite Hd2 in Hd'. injection Hd' as <-. eauto.
    + unfold dom_unincorporate in Hd'. rewrite bool_decide_eq_false_2 in Hd'; [done|].
      destruct H as [-> _]. by apply not_elem_of_dom.
  - destruct (a !! i) as [t0|] eqn:E.
    + destruct (decide (t0 = t)) as [->|Hne].
      * unfold dom_set_cluster in Hd'. destruct H as [Hd Hh]. rewrite (hs_assign _ _ Hh), E in Hd'.
        destruct (bool_decide _) in Hd'; simpl in Hd'; [|done].
        rewrite bool_decide_eq_false_2 in Hd' by auto. done.
      * destruct (dom_set_cluster_spec d a i t0 t H E Hne) as (d2 & Hd2 & Hh & _).
        rewrite Hd2 in Hd'. injection Hd' as <-. eauto.
    + unfold dom_set_cluster in Hd'. rewrite bool_decide_eq_false_2 in Hd'; [done|].
      destruct H as [-> _]. by apply not_elem_of_dom.
Qed.

Lemma dom_history ops d :
  foldM dom_do dom_new ops = Ok d -> exists a, domain_holds d a.
Proof.
  apply (foldM_inv dom_do (fun d => exists a, domain_holds d a)).
  - eexists. apply domain_holds_new.
  - intros s o s' _ [a Ha] Hs. destruct (dom_do_effect s a o s' Ha Hs) as (a' & H' & _). eauto.
Qed.
