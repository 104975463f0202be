(** Bigram is lawful; its predictive; what sampling does to it. *)
From stdpp Require Import list strings gmap.
From Coq Require Import ZArith Reals Lra Lia Ascii.
From Verif Require Import M_base M_math M_dist M_distributions S_math S_crp S_dist S_relation
  P_base P_math P_dist P_dirichlet P_normal.
Local Open Scope R_scope.

Definition succs (i : nat) (P : list (nat * nat)) : list Z :=
  (fun p => Z.of_nat p.2) <$> filter (fun p => p.1 = i) P.
Definition dists_of (k : nat) (a : R) (P : list (nat * nat)) : list dc :=
  (fun i => dc_of k a (succs i P)) <$> seq 0 k.
Definition pair_ok (k : nat) (p : nat * nat) : Prop := (p.1 < k)%nat /\ (p.2 < k)%nat.

Lemma dists_of_length k a P : length (dists_of k a P) = k.
Proof. unfold dists_of. by rewrite fmap_length, seq_length. Qed.
Lemma dists_of_lookup k a P i : (i < k)%nat -> dists_of k a P !! i = Some (dc_of k a (succs i P)).
Proof. intros H. unfold dists_of. rewrite list_lookup_fmap, lookup_seq_lt by done. done. Qed.
Lemma succs_perm i P P' : P ≡ₚ P' -> succs i P ≡ₚ succs i P'.
Proof. intros H. unfold succs. by rewrite H. Qed.
Lemma dc_of_perm k a l l' : l ≡ₚ l' -> dc_of k a l = dc_of k a l'.
Proof.
  intros Hp. unfold dc_of, count_list. rewrite Hp. f_equal.
  apply list_fmap_ext. intros i x _. by rewrite (occurrences_perm _ _ _ Hp).
Qed.
Lemma dists_of_perm k a P P' : P ≡ₚ P' -> dists_of k a P = dists_of k a P'.
Proof.
  intros H. unfold dists_of. apply list_fmap_ext. intros i x _. by apply dc_of_perm, succs_perm.
Qed.
Lemma succs_range k i P : Forall (pair_ok k) P -> Forall (in_cats k) (succs i P).
Proof.
  intros H. apply Forall_fmap. apply Forall_forall. intros p Hp. apply elem_of_list_filter in Hp as [_ Hp].
  rewrite Forall_forall in H. destruct (H p Hp). unfold in_cats. simpl. lia.
Qed.
Lemma succs_cons i p P : succs i (p :: P) = if decide (p.1 = i) then Z.of_nat p.2 :: succs i P else succs i P.
Proof. unfold succs. rewrite filter_cons. by destruct (decide _). Qed.

Lemma inc_pair_of k a P p : pair_ok k p ->
  bg_inc_pair 1 (dists_of k a P) p = Ok (dists_of k a (p :: P)).
Proof.
  intros [H1 H2]. unfold bg_inc_pair. rewrite dists_of_lookup by done. cbn [obind idx_].
  rewrite dc_inc_of by (unfold in_cats; lia). cbn [obind]. f_equal.
  apply list_eq. intros i. destruct (decide (i < k)%nat) as [Hi|Hi].
  - rewrite (dists_of_lookup _ _ (p :: P)) by done. rewrite succs_cons.
    destruct (decide (p.1 = i)) as [<-|Hne].
    + apply list_lookup_insert. by rewrite dists_of_length.
    + rewrite list_lookup_insert_ne by done. by rewrite dists_of_lookup.
  - rewrite !lookup_ge_None_2; [done| |]; rewrite ?insert_length, ?dists_of_length; lia.
Qed.
Lemma inc_pair_inverse w ds p ds1 : bg_inc_pair w ds p = Ok ds1 -> bg_inc_pair (- w) ds1 p = Ok ds.
Proof.
  unfold bg_inc_pair. intros E. apply obind_Ok in E as (d & Hd & E). apply idx_Ok in Hd.
  apply obind_Ok in E as (d' & Hi & [= <-]).
  rewrite list_lookup_insert by (by eapply lookup_lt_Some). cbn [obind idx_].
  rewrite (dc_incorporate_inverse _ _ _ _ Hi). cbn [obind]. rewrite list_insert_insert.
  by rewrite list_insert_id.
Qed.
Lemma uninc_pair_of k a P p : pair_ok k p ->
  bg_inc_pair (-1) (dists_of k a (p :: P)) p = Ok (dists_of k a P).
Proof. intros H. replace (-1) with (- (1)) by lra. by apply inc_pair_inverse, inc_pair_of. Qed.

Lemma inc_pairs_of k a Q P : Forall (pair_ok k) Q ->
  foldM (bg_inc_pair 1) (dists_of k a P) Q = Ok (dists_of k a (Q ++ P)).
Proof.
  intros H. revert P. induction H as [|p Q Hp HQ IH]; intros P; [done|]. cbn [foldM].
  rewrite inc_pair_of by done. cbn [obind]. rewrite IH. f_equal. apply dists_of_perm.
  simpl. by rewrite Permutation_middle.
Qed.
Lemma uninc_pairs_of k a Q P : Forall (pair_ok k) Q ->
  foldM (bg_inc_pair (-1)) (dists_of k a (Q ++ P)) Q = Ok (dists_of k a P).
Proof.
  intros H. revert P. induction H as [|p Q Hp HQ IH]; intros P; [done|]. cbn [foldM].
  simpl. rewrite uninc_pair_of by done. cbn [obind]. apply IH.
Qed.

(** Strings. *)
Definition num_of (mn mx : Z) : nat := Z.to_nat (mx - mn + 1).
Definition chars_ok (mn mx : Z) (cs : list ascii) : Prop := Forall (fun c => mn <= char_val c <= mx)%Z cs.
Definition idxs (mn : Z) (cs : list ascii) : list nat := (fun c => Z.to_nat (char_val c - mn)) <$> cs.
Definition trans (mn mx : Z) (x : string) : list (nat * nat) :=
  pairs_of (num_of mn mx :: idxs mn (String.list_ascii_of_string x) ++ [num_of mn mx]).
Definition bg_of (ml : nat) (mn mx : Z) (a : R) (l : list string) : bigram :=
  Bigram_ a ml mn mx (dists_of (S (num_of mn mx)) a (concat (trans mn mx <$> l))) (len l).
Definition bg_adm (ml : nat) (mn mx : Z) (x : string) : Prop :=
  (ml = 0 \/ String.length x <= ml)%nat /\ chars_ok mn mx (String.list_ascii_of_string x).

Lemma chars_to_indices_Ok b cs l :
  bg_chars_to_indices b cs = Ok l <-> chars_ok (bg_min_char b) (bg_max_char b) cs /\ l = idxs (bg_min_char b) cs.
Proof.
  unfold chars_ok. revert l. induction cs as [|c cs IH]; intros l; simpl.
  - split; [intros [= <-]|]; [done|]. by intros [_ ->].
  - unfold bg_char_to_index, bg_valid_char. case_bool_decide as Hc; cbn [assert_ obind].
    + destruct (bg_chars_to_indices b cs) as [l'| | | | |]; cbn [obind].
      1:{ destruct (proj1 (IH l') eq_refl) as [H1 ->]. split.
          - intros [= <-]. split; [by constructor|done].
          - intros [_ ->]. done. }
      all: split; [done|]; intros [Hf ->]; apply Forall_cons in Hf as [_ Hf];
           by discriminate (proj2 (IH _) (conj Hf eq_refl)).
    + split; [done|]. intros [Hf _]. by apply Forall_cons in Hf as [? _].
Qed.
Lemma string_to_indices_Ok b x l : bg_string_to_indices b x = Ok l <->
  chars_ok (bg_min_char b) (bg_max_char b) (String.list_ascii_of_string x) /\
  l = bg_num_chars b :: idxs (bg_min_char b) (String.list_ascii_of_string x) ++ [bg_num_chars b].
Proof.
  unfold bg_string_to_indices. split.
  - intros E. apply obind_Ok in E as (l' & E & [= <-]). apply chars_to_indices_Ok in E as [H ->]. done.
  - intros [H ->]. rewrite (proj2 (chars_to_indices_Ok b _ _) (conj H eq_refl)). done.
Qed.

Lemma pairs_of_ok k l : Forall (fun i => i < k)%nat l -> Forall (pair_ok k) (pairs_of l).
Proof.
  induction 1 as [|i l Hi Hl IH]; [constructor|]. destruct l as [|j l]; [constructor|].
  change (pairs_of (i :: j :: l)) with ((i, j) :: pairs_of (j :: l)).
  constructor; [|done]. apply Forall_cons in Hl as [Hj _]. done.
Qed.
Lemma idxs_lt mn mx cs : chars_ok mn mx cs -> Forall (fun i => i < num_of mn mx)%nat (idxs mn cs).
Proof.
  intros H. apply Forall_fmap. eapply Forall_impl; [exact H|]. intros c Hc. cbv beta in Hc |- *. unfold num_of, compose. lia.
Qed.
Lemma trans_ok mn mx x : chars_ok mn mx (String.list_ascii_of_string x) ->
  Forall (pair_ok (S (num_of mn mx))) (trans mn mx x).
Proof.
  intros H. apply pairs_of_ok. constructor; [lia|]. apply Forall_app. split; [|constructor; [lia|done]].
  eapply Forall_impl; [by eapply idxs_lt|]. simpl. lia.
Qed.
Lemma concat_trans_ok ml mn mx l : Forall (bg_adm ml mn mx) l ->
  Forall (pair_ok (S (num_of mn mx))) (concat (trans mn mx <$> l)).
Proof.
  induction 1 as [|x l [_ Hx] Hl IH]; [constructor|]. simpl. apply Forall_app. split; [by apply trans_ok|done].
Qed.

Lemma max_test ml x : (bool_decide (0 < ml)%nat && bool_decide (ml < String.length x)%nat) = false <->
  (ml = 0 \/ String.length x <= ml)%nat.
Proof. repeat case_bool_decide; simpl; split; intros; try done; lia. Qed.

Lemma bg_inc_of ml mn mx a l x : bg_adm ml mn mx x ->
  bg_incorporate (bg_of ml mn mx a l) x 1 = Ok (bg_of ml mn mx a (x :: l)).
Proof.
  intros [Hm Hc]. unfold bg_incorporate. cbn [bg_of bg_max_length].
  rewrite (proj2 (max_test ml x) Hm).
  rewrite (proj2 (string_to_indices_Ok (bg_of ml mn mx a l) x _)) by (split; [exact Hc|reflexivity]).
  cbn [obind bg_dists bg_of]. rewrite inc_pairs_of by by apply trans_ok. cbn [obind].
  unfold bg_of. by rewrite len_cons.
Qed.
Lemma bg_inc_Ok ml mn mx a l x w b' : bg_incorporate (bg_of ml mn mx a l) x w = Ok b' -> bg_adm ml mn mx x.
Proof.
  unfold bg_incorporate. cbn [bg_of bg_max_length].
  destruct (_ && _) eqn:E; [done|]. apply max_test in E. intros H.
  apply obind_Ok in H as (inds & H & _). apply string_to_indices_Ok in H as [Hc _]. done.
Qed.
Lemma bg_uninc_of ml mn mx a l x : bg_adm ml mn mx x ->
  bg_unincorporate (bg_of ml mn mx a (x :: l)) x = Ok (bg_of ml mn mx a l).
Proof.
  intros [Hm Hc]. unfold bg_unincorporate, bg_incorporate. cbn [bg_of bg_max_length].
  rewrite (proj2 (max_test ml x) Hm).
  rewrite (proj2 (string_to_indices_Ok (bg_of ml mn mx a (x :: l)) x _)) by (split; [exact Hc|reflexivity]).
  cbn [obind bg_dists bg_of]. cbn [fmap list_fmap concat].
  change (pairs_of _) with (trans mn mx x) at 1.
  rewrite uninc_pairs_of by by apply trans_ok. cbn [obind].
  unfold bg_of, bg_set_dists. cbn [bg_alpha bg_max_length bg_min_char bg_max_char bg_N]. rewrite len_cons.
  f_equal. f_equal. lra.
Qed.

Lemma bg_of_perm ml mn mx a l l' : l ≡ₚ l' -> bg_of ml mn mx a l = bg_of ml mn mx a l'.
Proof.
  intros Hp. unfold bg_of. rewrite (Permutation_length Hp). f_equal. apply dists_of_perm.
  induction Hp; simpl.
  - done.
  - by f_equiv.
  - rewrite !app_assoc. f_equiv. apply Permutation_app_comm.
  - by etrans.
Qed.

Lemma bg_set_alpha_of ml mn mx a a' l : bg_set_alpha (bg_of ml mn mx a l) a' = bg_of ml mn mx a' l.
Proof.
  unfold bg_set_alpha, bg_of. cbn [bg_max_length bg_min_char bg_max_char bg_N bg_dists]. f_equal.
  unfold dists_of. rewrite <- list_fmap_compose. done.
Qed.
Lemma bg_new_of ml mn mx : bg_new ml mn mx = bg_of ml mn mx 1 [].
Proof.
  unfold bg_new, bg_of. f_equal. unfold dists_of. fold (num_of mn mx). apply list_eq. intros i.
  rewrite list_lookup_fmap. destruct (decide (i < S (num_of mn mx))%nat).
  - rewrite lookup_replicate_2, lookup_seq_lt by done. simpl fmap. f_equal.
    unfold dc_new, dc_of. f_equal. unfold count_list. apply list_eq. intros j. rewrite list_lookup_fmap.
    destruct (decide (j < S (num_of mn mx))%nat).
    + rewrite lookup_replicate_2, lookup_seq_lt by done. done.
    + rewrite !lookup_ge_None_2; [done| |]; rewrite ?seq_length, ?replicate_length; lia.
  - rewrite !lookup_ge_None_2; [done| |]; rewrite ?seq_length, ?replicate_length; lia.
Qed.

(** Scores. *)
Lemma bg_score_alt lg b : bg_score lg b = Rsum (dc_score lg <$> bg_dists b).
Proof. unfold bg_score. rewrite foldl_Rsum. lra. Qed.

Lemma dists_score_cons lg k a P p l : is_lgamma lg -> 0 < a -> pair_ok k p ->
  dc_logp (dc_of k a (succs p.1 P)) (Z.of_nat p.2) = Ok l ->
  Rsum (dc_score lg <$> dists_of k a (p :: P)) = Rsum (dc_score lg <$> dists_of k a P) + l.
Proof.
  intros Hlg Ha Hp Hl. pose proof (inc_pair_of k a P p Hp) as E. unfold bg_inc_pair in E.
  destruct Hp as [H1 H2]. rewrite dists_of_lookup in E by done. cbn [obind idx_] in E.
  rewrite dc_inc_of in E by (unfold in_cats; lia). injection E as <-.
  rewrite list_fmap_insert. rewrite (Rsum_insert _ _ (dc_score lg (dc_of k a (succs p.1 P)))).
  - pose proof (dc_chain lg k a _ _ l Hlg Ha Hl). lra.
  - rewrite list_lookup_fmap, dists_of_lookup by done. done.
Qed.

Lemma bg_logp_of lg ml mn mx a l x : is_lgamma lg -> 0 < a ->
  chars_ok mn mx (String.list_ascii_of_string x) ->
  bg_logp (bg_of ml mn mx a l) x =
  Ok (bg_score lg (bg_of ml mn mx a (x :: l)) - bg_score lg (bg_of ml mn mx a l), bg_of ml mn mx a l).
Proof.
  intros Hlg Ha Hc. unfold bg_logp.
  rewrite (proj2 (string_to_indices_Ok (bg_of ml mn mx a l) x _)) by (split; [exact Hc|reflexivity]).
  cbn [obind bg_dists bg_of]. change (pairs_of _) with (trans mn mx x).
  assert (forall Q P t, Forall (pair_ok (S (num_of mn mx))) Q ->
    foldM (fun '(total, ds) p =>
      let* d := idx_ ((ds : list dc) !! p.1) in
      let* l := dc_logp d (Z.of_nat p.2) in
      let* ds' := bg_inc_pair 1 ds p in
      Ok (total + l, ds')) (t, dists_of (S (num_of mn mx)) a P) Q =
    Ok (t + (Rsum (dc_score lg <$> dists_of (S (num_of mn mx)) a (Q ++ P))
             - Rsum (dc_score lg <$> dists_of (S (num_of mn mx)) a P)),
        dists_of (S (num_of mn mx)) a (Q ++ P))) as Hfold.
  { intros Q P t HQ. revert P t. induction HQ as [|p Q Hp HQ IH]; intros P t.
    - cbn [foldM app]. f_equal. f_equal. lra.
    - cbn [foldM]. destruct Hp as [H1 H2] eqn:Ep. rewrite dists_of_lookup by done. cbn [obind idx_].
      rewrite dc_logp_of by (unfold in_cats; lia). cbn [obind].
      rewrite inc_pair_of by done. cbn [obind]. rewrite IH.
      rewrite (dists_of_perm _ _ (Q ++ p :: P) ((p :: Q) ++ P)) by (simpl; by rewrite Permutation_middle).
      f_equal. f_equal.
      erewrite (dists_score_cons lg _ a P p) by (try done; apply dc_logp_of; unfold in_cats; lia). lra. }
  rewrite Hfold by by apply trans_ok. cbn [obind].
  rewrite uninc_pairs_of by by apply trans_ok. cbn [obind]. rewrite !bg_score_alt. f_equal. f_equal.
  unfold bg_of. cbn [bg_dists]. rewrite fmap_cons. cbn [concat]. lra.
Qed.
Lemma bg_logp_Ok ml mn mx a l x p : bg_logp (bg_of ml mn mx a l) x = Ok p ->
  chars_ok mn mx (String.list_ascii_of_string x).
Proof.
  unfold bg_logp. intros E. apply obind_Ok in E as (inds & E & _). by apply string_to_indices_Ok in E as [H _].
Qed.

Lemma bg_score_empty lg ml mn mx a : bg_score lg (bg_of ml mn mx a []) = 0.
Proof.
  rewrite bg_score_alt. unfold bg_of. cbn [bg_dists]. unfold dists_of. rewrite <- list_fmap_compose.
  assert (forall n m k, Rsum (compose (dc_score lg) (fun i => dc_of k a (succs i (concat (trans mn mx <$> [])))) <$> seq n m) = 0) as H; [|apply H].
  intros n m k. revert n. induction m as [|m IH]; intros n; [done|].
  cbn [seq]. rewrite fmap_cons, Rsum_cons, IH. unfold compose. simpl. rewrite dc_score_empty. lra.
Qed.

Definition bg_lawful nearest lg ml mn mx : lawful (bg_dist_with nearest lg ml mn mx).
Proof.
  refine {| law_hyp := pos1;
            law_of := (fun h l => bg_of ml mn mx (`h) l) : pos1 -> _ -> d_state (bg_dist_with nearest lg ml mn mx);
            law_adm := bg_adm ml mn mx |}.
  - intros h l l' Hp. by apply bg_of_perm.
  - intros h l v s' _. cbn [d_inc bg_dist_with]. split.
    + intros E. pose proof (bg_inc_Ok _ _ _ _ _ _ _ _ E) as Hv. rewrite bg_inc_of in E by done. by injection E as <-.
    + intros [Hv ->]. by apply bg_inc_of.
  - intros h l v Hv. apply Forall_cons in Hv as [Hv _]. by apply bg_uninc_of.
  - intros h l. apply R_is_zero_INR.
  - intros h l. apply R_is_pos_INR.
  - intros sp r. exists (exist _ 1 Rlt_0_1). simpl. apply bg_new_of.
  - intros h l r s r' Hadm E. cbn [d_resample bg_dist_with] in E. unfold bg_transition in E.
    apply obind_Ok in E as ([a r1] & E & [= <- <-]).
    apply grid_transition_Ok in E. exists (exist _ a (alpha_grid_pos a E)). simpl. apply bg_set_alpha_of.
  - intros h. apply bg_score_empty.
Defined.
