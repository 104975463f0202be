(** DirichletCategorical is lawful; its predictive. *)
From stdpp Require Import list strings gmap.
From Coq Require Import ZArith Reals Lra Lia.
From Verif Require Import M_base M_math M_dist M_distributions S_math S_crp S_dist S_relation
  P_base P_math P_dist.
Local Open Scope R_scope.

Definition count_list (k : nat) (l : list Z) : list R :=
  (fun i => INR (occurrences (Z.of_nat i) l)) <$> seq 0 k.
Definition dc_of (k : nat) (a : R) (l : list Z) : dc := DC a (count_list k l) (INR (length l)).
Definition in_cats (k : nat) (x : Z) : Prop := (0 <= x < Z.of_nat k)%Z.

Lemma count_list_length k l : length (count_list k l) = k.
Proof. unfold count_list. by rewrite fmap_length, seq_length. Qed.
Lemma count_list_lookup k l i : (i < k)%nat ->
  count_list k l !! i = Some (INR (occurrences (Z.of_nat i) l)).
Proof. intros Hi. unfold count_list. rewrite list_lookup_fmap, lookup_seq_lt by done. done. Qed.
Lemma dc_in_range_of k a l x : dc_in_range (dc_of k a l) x = bool_decide (in_cats k x).
Proof. unfold dc_in_range, dc_of, in_cats. cbn [dc_counts]. by rewrite count_list_length. Qed.

Lemma count_list_cons k l x : in_cats k x ->
  count_list k (x :: l) = <[Z.to_nat x := INR (occurrences x l) + 1]> (count_list k l).
Proof.
  intros Hx. unfold in_cats in Hx. apply list_eq. intros i.
  destruct (decide (i < k)%nat) as [Hi|Hi].
  - rewrite count_list_lookup by done. rewrite occurrences_cons.
    destruct (decide (x = Z.of_nat i)) as [E|E].
    + subst x. rewrite Nat2Z.id. rewrite list_lookup_insert by (rewrite count_list_length; done).
      f_equal. rewrite plus_INR. simpl. lra.
    + rewrite list_lookup_insert_ne by lia. rewrite count_list_lookup by done. done.
  - rewrite !lookup_ge_None_2; [done| |]; rewrite ?insert_length, ?count_list_length; lia.
Qed.

Lemma dc_inc_of k a l x : in_cats k x ->
  dc_incorporate (dc_of k a l) x 1 = Ok (dc_of k a (x :: l)).
Proof.
  intros Hx. unfold dc_incorporate. rewrite dc_in_range_of, bool_decide_eq_true_2 by done.
  unfold dc_of at 1. cbn [obind assert_ dc_counts dc_alpha dc_N]. unfold in_cats in Hx.
  rewrite count_list_lookup by lia. rewrite Z2Nat.id by lia. cbn [obind idx_].
  unfold dc_of. cbn [dc_counts dc_alpha dc_N]. rewrite count_list_cons by done.
  rewrite <- (S_INR (length l)). done.
Qed.
Lemma dc_inc_Ok k a l x w d' : dc_incorporate (dc_of k a l) x w = Ok d' -> in_cats k x.
Proof.
  unfold dc_incorporate. rewrite dc_in_range_of. case_bool_decide; [done|]. done.
Qed.

Lemma dc_incorporate_inverse d x w d1 : dc_incorporate d x w = Ok d1 -> dc_incorporate d1 x (- w) = Ok d.
Proof.
  unfold dc_incorporate. intros E. apply obind_Ok in E as (u & Hr & E). apply assert_Ok in Hr.
  apply obind_Ok in E as (c & Hc & [= <-]). apply idx_Ok in Hc.
  unfold dc_in_range in *. cbn [dc_counts dc_alpha dc_N]. rewrite insert_length, Hr. cbn [obind assert_].
  rewrite list_lookup_insert by (by eapply lookup_lt_Some). cbn [obind idx_].
  rewrite list_insert_insert. f_equal. destruct d as [a cs n]. cbn [dc_counts dc_alpha dc_N] in *. f_equal; [|lra].
  replace (c + w + - w) with c by lra. by apply list_insert_id.
Qed.

Lemma dc_uninc_of k a l x : in_cats k x -> dc_unincorporate (dc_of k a (x :: l)) x = Ok (dc_of k a l).
Proof. intros Hx. by apply dc_incorporate_inverse, dc_inc_of. Qed.

Lemma alpha_grid_pos a : a ∈ alpha_grid -> 0 < a.
Proof.
  unfold alpha_grid. rewrite !elem_of_cons. intros H.
  repeat (destruct H as [->|H]; [lra|]). by apply elem_of_nil in H.
Qed.

Definition pos1 := {a : R | 0 < a}.
Lemma foldl_Rsum {A} (f : A -> R) (l : list A) acc :
  foldl (fun acc x => acc + f x) acc l = acc + Rsum (f <$> l).
Proof.
  revert acc. induction l as [|x l IH]; intros acc; [by rewrite Rplus_0_r|].
  cbn [foldl]. rewrite IH, fmap_cons, Rsum_cons. lra.
Qed.
Lemma dc_score_empty lg k a : dc_score lg (dc_of k a []) = 0.
Proof.
  unfold dc_score, dc_of. cbn [dc_counts dc_alpha dc_N]. rewrite foldl_Rsum, count_list_length.
  change (INR (length [])) with 0. rewrite !Rplus_0_r, Rplus_0_l.
  assert (Rsum ((fun x => lg (x + a)) <$> count_list k []) = INR k * lg a) as ->; [|lra].
  unfold count_list. rewrite <- list_fmap_compose.
  assert (forall n m, Rsum ((compose (fun x => lg (x + a)) (fun i => INR (occurrences (Z.of_nat i) []))) <$> seq n m)
    = INR m * lg a) as H; [|apply H].
  intros n m. revert n. induction m as [|m IH]; intros n; [simpl; unfold Rsum; simpl; lra|].
  cbn [seq]. rewrite fmap_cons, Rsum_cons, IH, S_INR. unfold compose.
  change (INR (occurrences (Z.of_nat n) [])) with 0. rewrite Rplus_0_l. lra.
Qed.
Definition dc_lawful lg k : lawful (dc_dist lg k).
Proof.
  refine {| law_hyp := pos1; law_of := (fun h l => dc_of k (`h) l) : pos1 -> _ -> d_state (dc_dist lg k);
            law_adm := in_cats k |}.
  - intros h l l' Hp. unfold dc_of, count_list. rewrite Hp. f_equal.
    apply list_fmap_ext. intros i x _. by rewrite (occurrences_perm _ _ _ Hp).
  - intros h l v s' _. cbn [d_inc dc_dist]. split.
    + intros E. pose proof (dc_inc_Ok _ _ _ _ _ _ E) as Hv. rewrite dc_inc_of in E by done. by injection E as <-.
    + intros [Hv ->]. by apply dc_inc_of.
  - intros h l v Hv. apply Forall_cons in Hv as [Hv _]. by apply dc_uninc_of.
  - intros h l. apply R_is_zero_INR.
  - intros h l. apply R_is_pos_INR.
  - intros sp r. exists (exist _ 1 Rlt_0_1). simpl. unfold dc_new, dc_of. f_equal.
    unfold count_list. apply list_eq. intros i. rewrite list_lookup_fmap.
    destruct (decide (i < k)%nat).
    + rewrite lookup_replicate_2, lookup_seq_lt by done. done.
    + rewrite !lookup_ge_None_2; [done| |]; rewrite ?seq_length, ?replicate_length; lia.
  - intros h l r s r' Hadm E. cbn [d_resample dc_dist] in E. unfold dc_transition in E.
    apply obind_Ok in E as ([a r1] & E & [= <- <-]).
    apply grid_transition_Ok in E. exists (exist _ a (alpha_grid_pos a E)). done.
  - intros h. apply dc_score_empty.
Defined.

Lemma Rsum_insert (l : list R) i x y : l !! i = Some x -> Rsum (<[i := y]> l) = Rsum l - x + y.
Proof.
  revert i. induction l as [|z l IH]; intros i Hi; [done|].
  destruct i; simpl in *; rewrite !Rsum_cons.
  - injection Hi as ->. lra.
  - rewrite (IH _ Hi). lra.
Qed.

Lemma Rsum_count_list k l : Forall (in_cats k) l -> Rsum (count_list k l) = INR (length l).
Proof.
  induction 1 as [|x l Hx Hl IH].
  - unfold count_list. replace (Rsum _) with (Rsum (replicate k 0)).
    + clear. induction k; [done|]. simpl. rewrite Rsum_cons, IHk. simpl. lra.
    + f_equal. apply list_eq. intros i. rewrite list_lookup_fmap.
      destruct (decide (i < k)%nat).
      * rewrite lookup_replicate_2, lookup_seq_lt by done. done.
      * rewrite !lookup_ge_None_2; [done| |]; rewrite ?seq_length, ?replicate_length; lia.
  - rewrite count_list_cons by done. unfold in_cats in Hx.
    rewrite (Rsum_insert _ _ (INR (occurrences x l))).
    + rewrite IH. change (length (x :: l)) with (S (length l)). rewrite S_INR. lra.
    + rewrite count_list_lookup by lia. by rewrite Z2Nat.id by lia.
Qed.

Lemma dc_logp_of k a l x : in_cats k x ->
  dc_logp (dc_of k a l) x = Ok (ln (a + INR (occurrences x l)) - ln (INR (length l) + a * INR k)).
Proof.
  intros Hx. unfold dc_logp. rewrite dc_in_range_of, bool_decide_eq_true_2 by done.
  unfold dc_of. cbn [obind assert_ dc_counts dc_alpha dc_N]. unfold in_cats in Hx.
  rewrite count_list_lookup by lia. rewrite Z2Nat.id by lia. cbn [obind idx_].
  by rewrite count_list_length.
Qed.

Lemma Rsum_const_plus (a : R) (l : list R) : Rsum ((fun x => a + x) <$> l) = a * INR (length l) + Rsum l.
Proof.
  induction l as [|x l IH]; [simpl; unfold Rsum; simpl; lra|].
  rewrite fmap_cons, !Rsum_cons, IH. change (length (x :: l)) with (S (length l)). rewrite S_INR. lra.
Qed.

Lemma dc_predictive k a l : (0 < k)%nat -> 0 < a -> Forall (in_cats k) l ->
  Rsum ((fun i => match dc_logp (dc_of k a l) (Z.of_nat i) with Ok p => exp p | _ => 0 end) <$> seq 0 k) = 1.
Proof.
  intros Hk Ha Hl.
  assert (0 < INR (length l) + a * INR k) as HD.
  { pose proof (pos_INR (length l)). pose proof (lt_0_INR k Hk).
    pose proof (Rmult_lt_0_compat a (INR k)). lra. }
  assert ((fun i => match dc_logp (dc_of k a l) (Z.of_nat i) with Ok p => exp p | _ => 0 end) <$> seq 0 k
    = (fun x => / (INR (length l) + a * INR k) * x) <$> ((fun x => a + x) <$> count_list k l)) as ->.
  { unfold count_list. rewrite <- !list_fmap_compose. apply list_fmap_ext. intros i x Hx.
    apply lookup_seq in Hx as [-> Hi]. simpl. unfold compose.
    rewrite dc_logp_of by (unfold in_cats; lia).
    pose proof (pos_INR (occurrences (Z.of_nat i) l)).
    unfold Rminus. rewrite exp_plus, exp_Ropp, !exp_ln by lra. lra. }
  rewrite Rsum_scal, Rsum_const_plus, count_list_length, Rsum_count_list by done.
  field. lra.
Qed.

Lemma dc_chain lg k a l x p : is_lgamma lg -> 0 < a -> dc_logp (dc_of k a l) x = Ok p ->
  dc_score lg (dc_of k a (x :: l)) - dc_score lg (dc_of k a l) = p.
Proof.
  intros [_ Hlg] Ha Hp.
  assert (in_cats k x) as Hx.
  { unfold dc_logp in Hp. rewrite dc_in_range_of in Hp. case_bool_decide; [done|done]. }
  rewrite dc_logp_of in Hp by done. injection Hp as <-.
  unfold dc_score. cbn [dc_of dc_counts dc_alpha dc_N]. rewrite !foldl_Rsum, !count_list_length.
  rewrite count_list_cons by done. rewrite list_fmap_insert. unfold in_cats in Hx.
  rewrite (Rsum_insert _ _ (lg (INR (occurrences x l) + a))).
  2:{ rewrite list_lookup_fmap, count_list_lookup by lia. by rewrite Z2Nat.id by lia. }
  change (length (x :: l)) with (S (length l)). rewrite S_INR.
  assert (0 < INR k) as Hk by (apply lt_0_INR; lia).
  pose proof (Rmult_lt_0_compat _ _ Ha Hk). pose proof (pos_INR (length l)). pose proof (pos_INR (occurrences x l)).
  replace (a * INR k + (INR (length l) + 1)) with (a * INR k + INR (length l) + 1) by lra.
  replace (INR (occurrences x l) + 1 + a) with (INR (occurrences x l) + a + 1) by lra.
  rewrite !Hlg by lra. rewrite (Rplus_comm a), (Rplus_comm (INR (length l)) (a * INR k)). lra.
Qed.

