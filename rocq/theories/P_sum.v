From stdpp Require Import gmap.
From Coq Require Import ZArith Reals Lra.
From Verif Require Import S_crp.
Local Open Scope R_scope.

Section sum.
  Context {K A : Type} `{Countable K}.
  Implicit Types (m : gmap K A) (f g : K -> A -> R).

  Lemma sum_map_empty f : sum_map f (∅ : gmap K A) = 0.
  Proof. unfold sum_map. by rewrite map_to_list_empty. Qed.

  Lemma foldr_sum_perm f (l1 l2 : list (K * A)) : l1 ≡ₚ l2 ->
    foldr (fun p acc => f p.1 p.2 + acc) 0 l1 = foldr (fun p acc => f p.1 p.2 + acc) 0 l2.
  Proof. induction 1; simpl; lra. Qed.

  Lemma sum_map_insert f m k v : m !! k = None ->
    sum_map f (<[k := v]> m) = f k v + sum_map f m.
  Proof.
    intros Hk. unfold sum_map.
    rewrite (foldr_sum_perm f _ _ (map_to_list_insert m k v Hk)). done.
  Qed.

  Lemma sum_map_delete f m k v : m !! k = Some v ->
    sum_map f m = f k v + sum_map f (delete k m).
  Proof.
    intros Hk. rewrite <- sum_map_insert by apply lookup_delete.
    by rewrite insert_delete.
  Qed.

  Lemma sum_map_update f m k v v' : m !! k = Some v ->
    sum_map f (<[k := v']> m) = sum_map f m - f k v + f k v'.
  Proof.
    intros Hk. rewrite (sum_map_delete f m k v Hk).
    rewrite <- insert_delete_insert, sum_map_insert by apply lookup_delete. lra.
  Qed.

  Lemma sum_map_ext f g m :
    (forall k v, m !! k = Some v -> f k v = g k v) -> sum_map f m = sum_map g m.
  Proof.
    induction m as [|k v m Hk IH] using map_ind; intros Hfg.
    - by rewrite !sum_map_empty.
    - rewrite !sum_map_insert by done. rewrite IH.
      + rewrite (Hfg k v); [lra|]. by rewrite lookup_insert.
      + intros k' v' Hk'. apply Hfg. rewrite lookup_insert_ne; [done|]. by intros ->; congruence.
  Qed.

  Lemma sum_map_plus f g m :
    sum_map (fun k v => f k v + g k v) m = sum_map f m + sum_map g m.
  Proof.
    induction m as [|k v m Hk IH] using map_ind.
    - rewrite !sum_map_empty. lra.
    - rewrite !sum_map_insert by done. rewrite IH. lra.
  Qed.

  Lemma sum_map_scal c f m :
    sum_map (fun k v => c * f k v) m = c * sum_map f m.
  Proof.
    induction m as [|k v m Hk IH] using map_ind.
    - rewrite !sum_map_empty. lra.
    - rewrite !sum_map_insert by done. rewrite IH. lra.
  Qed.

  Lemma sum_map_nonneg f m :
    (forall k v, m !! k = Some v -> 0 <= f k v) -> 0 <= sum_map f m.
  Proof.
    induction m as [|k v m Hk IH] using map_ind; intros Hp.
    - rewrite sum_map_empty. lra.
    - rewrite sum_map_insert by done.
      assert (0 <= f k v) by (apply Hp; by rewrite lookup_insert).
      assert (0 <= sum_map f m); [|lra]. apply IH. intros k' v' Hk'. apply Hp.
      rewrite lookup_insert_ne; [done|]. intros ->; congruence.
  Qed.

  Lemma map_fold_sum_map f m :
    map_fold (fun k v acc => f k v + acc) 0 m = sum_map f m.
  Proof.
    induction m as [|k v m Hk IH] using map_ind.
    - by rewrite map_fold_empty, sum_map_empty.
    - rewrite sum_map_insert by done. rewrite map_fold_insert_L; [by rewrite IH| |done].
      intros; lra.
  Qed.
End sum.

Lemma sum_map_fmap {K A B} `{Countable K} (f : K -> B -> R) (h : A -> B) (m : gmap K A) :
  sum_map f (h <$> m) = sum_map (fun k v => f k (h v)) m.
Proof.
  induction m as [|k v m Hk IH] using map_ind.
  - by rewrite fmap_empty, !sum_map_empty.
  - rewrite fmap_insert, !sum_map_insert; [by rewrite IH|done|]. by rewrite lookup_fmap, Hk.
Qed.

Global Arguments sum_map : simpl never.
