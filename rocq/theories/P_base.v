From stdpp Require Import gmap sorting.
From Coq Require Import ZArith Lia.
From Verif Require Import M_base.

Lemma obind_Ok {A B} (m : outcome A) (f : A -> outcome B) b :
  obind m f = Ok b <-> exists a, m = Ok a /\ f a = Ok b.
Proof. destruct m; simpl; naive_solver. Qed.

Lemma assert_Ok b u : assert_ b = Ok u <-> b = true.
Proof. destruct b, u; simpl; naive_solver. Qed.

Lemma at_Ok {A} (o : option A) a : at_ o = Ok a <-> o = Some a.
Proof. destruct o; simpl; naive_solver. Qed.

Lemma idx_Ok {A} (o : option A) a : idx_ o = Ok a <-> o = Some a.
Proof. destruct o; simpl; naive_solver. Qed.

(** Destruct all monadic steps in a hypothesis [H : ... = Ok _]. *)
Ltac inv_ok1 H :=
  match type of H with
  | obind ?m ?f = Ok _ =>
    apply obind_Ok in H;
    let a := fresh "v" in let H1 := fresh "H" in
    destruct H as (a & H1 & H); try inv_ok1 H1; try inv_ok1 H
  | assert_ _ = Ok _ => apply assert_Ok in H
  | at_ _ = Ok _ => apply at_Ok in H
  | idx_ _ = Ok _ => apply idx_Ok in H
  | Ok _ = Ok _ => injection H as H; subst
  | (let '_ := ?x in _) = Ok _ => destruct x; try inv_ok1 H
  end.
Ltac inv_ok H := repeat progress (inv_ok1 H); simplify_eq/=.

Lemma foldM_app {A S} (f : S -> A -> outcome S) l1 l2 s :
  foldM f s (l1 ++ l2) = obind (foldM f s l1) (fun s' => foldM f s' l2).
Proof.
  revert s; induction l1 as [|a l1 IH]; intros s; simpl; [done|].
  destruct (f s a); simpl; auto.
Qed.

Lemma foldM_inv {A S} (f : S -> A -> outcome S) (P : S -> Prop) l s s' :
  P s -> (forall s a s', a ∈ l -> P s -> f s a = Ok s' -> P s') ->
  foldM f s l = Ok s' -> P s'.
Proof.
  revert s; induction l as [|a l IH]; intros s Hs Hf H; simpl in H.
  - inv_ok H. done.
  - inv_ok H. eapply IH; [|intros; eapply Hf; eauto; set_solver|eassumption].
    eapply Hf; eauto. set_solver.
Qed.

Lemma sorted_keys_perm {A} (m : gmap Z A) : sorted_keys m ≡ₚ elements (dom m).
Proof. apply merge_sort_Permutation. Qed.

Lemma elem_of_sorted_keys {A} (m : gmap Z A) k : k ∈ sorted_keys m <-> is_Some (m !! k).
Proof.
  rewrite sorted_keys_perm. rewrite elem_of_elements. apply elem_of_dom.
Qed.

Lemma NoDup_sorted_keys {A} (m : gmap Z A) : NoDup (sorted_keys m).
Proof. rewrite sorted_keys_perm. apply NoDup_elements. Qed.

Lemma length_sorted_keys {A} (m : gmap Z A) : length (sorted_keys m) = size m.
Proof.
  rewrite sorted_keys_perm. unfold size, map_size.
  change (length (elements (dom m))) with (size (dom m)). by rewrite size_dom.
Qed.

Lemma Sorted_sorted_keys {A} (m : gmap Z A) : Sorted Z.le (sorted_keys m).
Proof. apply Sorted_merge_sort; intros ??; lia. Qed.

Lemma max_key_Some {A} (m : gmap Z A) k :
  max_key m = Some k <-> is_Some (m !! k) /\ forall k', is_Some (m !! k') -> (k' <= k)%Z.
Proof.
  assert (Hdir : forall k, max_key m = Some k ->
     is_Some (m !! k) /\ forall k', is_Some (m !! k') -> (k' <= k)%Z).
  { intros k0 Hk. unfold max_key in Hk. apply last_Some in Hk as [l' Hl].
    split.
    - apply elem_of_sorted_keys. rewrite Hl. set_solver.
    - intros k' Hk'. apply elem_of_sorted_keys in Hk'. rewrite Hl in Hk'.
      apply elem_of_app in Hk' as [Hin|Hin]; [|set_solver by lia].
      pose proof (Sorted_sorted_keys m) as HS. rewrite Hl in HS.
      apply Sorted_StronglySorted in HS; [|intros ???; lia].
      apply elem_of_StronglySorted_app with (x1:=k') (x2:=k0) in HS; [done|done|set_solver]. }
  split; [apply Hdir|].
  intros [[v Hv] Hmax].
  destruct (max_key m) as [k2|] eqn:E.
  - destruct (Hdir k2 eq_refl) as [H1 H2]. f_equal.
    apply Z.le_antisymm; [by apply Hmax|]. apply H2; eauto.
  - unfold max_key in E. apply last_None in E.
    assert (k ∈ sorted_keys m) as Hin by (apply elem_of_sorted_keys; eauto).
    rewrite E in Hin. set_solver.
Qed.

Lemma max_key_exists {A} (m : gmap Z A) : m <> ∅ -> exists k, max_key m = Some k.
Proof.
  intros Hm. destruct (max_key m) eqn:E; [eauto|].
  unfold max_key in E. apply last_None in E.
  exfalso. apply Hm. apply map_eq. intros k. rewrite lookup_empty.
  destruct (m !! k) eqn:Ek; [|done].
  assert (k ∈ sorted_keys m) as Hin by (apply elem_of_sorted_keys; eauto).
  rewrite E in Hin. set_solver.
Qed.

Lemma choose_index_lt n r i r' : choose_index n r = (i, r') -> n <> 0 -> i < n.
Proof.
  unfold choose_index. destruct (draw r) as [x r2]. destruct n; [done|].
  pose proof (Nat.mod_upper_bound x (S n) ltac:(lia)) as Hlt.
  intros H _. assert (i = x mod S n) as -> by congruence. done.
Qed.

(** Every index in range can be drawn. *)
Lemma choose_index_surj n i : i < n -> exists r, choose_index n r = (i, []).
Proof.
  intros Hi. exists [i]. unfold choose_index; simpl. destruct n; [lia|].
  by rewrite Nat.mod_small.
Qed.
