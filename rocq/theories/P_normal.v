(** Normal and ZeroMeanNormal are lawful; their predictives. *)
From stdpp Require Import list strings gmap.
From Coq Require Import ZArith Reals Lra Lia.
From Verif Require Import M_base M_math M_dist M_distributions S_math S_crp S_dist S_relation
  P_base P_math P_dist P_beta_bernoulli P_dirichlet.
Local Open Scope R_scope.

Notation sq := (fun x : R => x * x).
Notation len l := (INR (length l)).

Lemma len_cons {A} (x : A) l : len (x :: l) = len l + 1.
Proof. change (length (x :: l)) with (S (length l)). by rewrite S_INR. Qed.
Lemma len_zero {A} (l : list A) : len l = 0 -> l = [].
Proof. intros H. apply (INR_eq _ 0%nat) in H. by apply nil_length_inv. Qed.
Lemma mean_of_alt l : mean_of l = Rsum l / len l.
Proof. destruct l; [|done]. simpl. unfold Rsum. simpl. lra. Qed.
Lemma mean_square_of_alt l : mean_square_of l = Rsum (sq <$> l) / len l.
Proof. destruct l; [|done]. simpl. unfold Rsum. simpl. lra. Qed.
Lemma Rsum_shift_sq l c :
  Rsum ((fun x => (x - c) * (x - c)) <$> l) = Rsum (sq <$> l) - 2 * c * Rsum l + len l * (c * c).
Proof.
  induction l as [|x l IH]; [unfold Rsum; simpl; lra|].
  rewrite !fmap_cons, !Rsum_cons, IH, len_cons. lra.
Qed.
Lemma variance_of_alt l : l <> [] -> variance_of l = Rsum (sq <$> l) / len l - mean_of l * mean_of l.
Proof.
  intros Hl. assert (len l <> 0) by (intros H; by apply Hl, len_zero).
  assert (variance_of l = Rsum ((fun x => (x - mean_of l) * (x - mean_of l)) <$> l) / len l) as -> by (by destruct l).
  rewrite Rsum_shift_sq, mean_of_alt. field. done.
Qed.
Lemma len_mean l : len l * mean_of l = Rsum l.
Proof.
  destruct l as [|x l]; [unfold Rsum; simpl; lra|]. rewrite mean_of_alt. field.
  intros H. by apply len_zero in H.
Qed.
Lemma len_variance l : len l * variance_of l = Rsum (sq <$> l) - len l * (mean_of l * mean_of l).
Proof.
  destruct l as [|x l]; [unfold Rsum; simpl; lra|]. rewrite variance_of_alt by done. field.
  intros H. by apply len_zero in H.
Qed.
Lemma mean_of_perm l l' : l ≡ₚ l' -> mean_of l = mean_of l'.
Proof. intros H. rewrite !mean_of_alt, (Rsum_perm _ _ H). by rewrite H. Qed.
Lemma mean_square_of_perm l l' : l ≡ₚ l' -> mean_square_of l = mean_square_of l'.
Proof.
  intros H. rewrite !mean_square_of_alt. rewrite (Rsum_perm (sq <$> l) (sq <$> l')); [|by rewrite H]. by rewrite H.
Qed.
Lemma variance_of_perm l l' : l ≡ₚ l' -> variance_of l = variance_of l'.
Proof.
  intros H. destruct l as [|x l].
  { apply Permutation_nil in H. by rewrite H. }
  destruct l' as [|y l']; [symmetry in H; by apply Permutation_nil in H|].
  rewrite !variance_of_alt by done. rewrite (mean_of_perm _ _ H).
  rewrite (Rsum_perm (sq <$> x :: l) (sq <$> y :: l')); [|by rewrite H]. by rewrite H.
Qed.

(** Prior hyperparameters (r, v, m, s) with r, v, s > 0. *)
Definition nm_hyp := {h : R * R * R * R | 0 < h.1.1.1 /\ 0 < h.1.1.2 /\ 0 < h.2}.
Definition nm_of4 (h : R * R * R * R) (l : list R) : normal :=
  Normal_ h.1.1.1 h.1.1.2 h.1.2 h.2 (len l) (mean_of l) (variance_of l).
Definition nm_of (h : nm_hyp) (l : list R) : normal := nm_of4 (`h) l.

Lemma nm_inc_of h l x : nm_incorporate (nm_of4 h l) x 1 = nm_of4 h (x :: l).
Proof.
  unfold nm_incorporate, nm_of4. cbn [nm_r nm_v nm_m nm_s nm_N nm_mean nm_var].
  pose proof (pos_INR (length l)) as Hn.
  destruct (Req_EM_T (len l + 1) 0) as [E|_]; [lra|].
  pose proof (len_mean l) as H1. pose proof (len_variance l) as H2.
  rewrite (variance_of_alt (x :: l)) by done. rewrite (mean_of_alt (x :: l)).
  rewrite fmap_cons, !Rsum_cons, len_cons.
  replace (Rsum (sq <$> l)) with (len l * variance_of l + len l * (mean_of l * mean_of l)) by lra.
  rewrite <- H1. set (n := len l) in *. f_equal; field; lra.
Qed.

Lemma nm_uninc_of h l x : nm_unincorporate (nm_of4 h (x :: l)) x = nm_of4 h l.
Proof.
  unfold nm_unincorporate, nm_incorporate, nm_of4. cbn [nm_r nm_v nm_m nm_s nm_N nm_mean nm_var].
  pose proof (pos_INR (length l)) as Hn. rewrite !len_cons.
  destruct (Req_EM_T (len l + 1 + -1) 0) as [E|E].
  { assert (l = []) as -> by (apply len_zero; lra). simpl. f_equal. lra. }
  pose proof (len_mean l) as H1. pose proof (len_variance l) as H2.
  rewrite (variance_of_alt (x :: l)) by done. rewrite (mean_of_alt (x :: l)).
  rewrite fmap_cons, !Rsum_cons, len_cons.
  replace (Rsum (sq <$> l)) with (len l * variance_of l + len l * (mean_of l * mean_of l)) by lra.
  rewrite <- H1. set (n := len l) in *. f_equal; field; lra.
Qed.

Lemma nm_grid_pos h : h ∈ nm_grid -> 0 < h.1.1.1 /\ 0 < h.1.1.2 /\ 0 < h.2.
Proof.
  unfold nm_grid. intros H. apply elem_of_list_bind in H as (r & H & Hr).
  apply elem_of_list_bind in H as (v & H & Hv). apply elem_of_list_bind in H as (m & H & Hm).
  apply elem_of_list_fmap in H as (s & -> & Hs). simpl.
  rewrite !elem_of_cons in Hr. rewrite !elem_of_cons in Hv. rewrite !elem_of_cons in Hs.
  repeat split.
  - repeat (destruct Hr as [->|Hr]; [lra|]). by apply elem_of_nil in Hr.
  - repeat (destruct Hv as [->|Hv]; [lra|]). by apply elem_of_nil in Hv.
  - repeat (destruct Hs as [->|Hs]; [lra|]). by apply elem_of_nil in Hs.
Qed.

(** normal.cc:28-31: what [posterior_hypers] computes. *)
Lemma nm_posterior_spec r v m s l : 0 < r ->
  nm_posterior (nm_of4 (r, v, m, s) l) =
    let m' := (r * m + Rsum l) / (r + len l) in
    (m', s + Rsum (sq <$> l) + r * (m * m) - (r + len l) * (m' * m')).
Proof.
  intros Hr. unfold nm_posterior, nm_of4. cbn [nm_r nm_v nm_m nm_s nm_N nm_mean nm_var fst snd].
  pose proof (pos_INR (length l)) as Hn.
  pose proof (len_mean l) as H1. pose proof (len_variance l) as H2.
  replace (Rsum (sq <$> l)) with (len l * variance_of l + len l * (mean_of l * mean_of l)) by lra.
  rewrite <- H1. set (n := len l) in *. f_equal; field; lra.
Qed.

Lemma Rsum_sq_ge l : Rsum l * Rsum l <= len l * Rsum (sq <$> l).
Proof.
  destruct l as [|x l]; [unfold Rsum; simpl; lra|].
  set (k := x :: l). assert (0 < len k) as Hk.
  { apply lt_0_INR. simpl. lia. }
  assert (0 <= Rsum ((fun y => (y - mean_of k) * (y - mean_of k)) <$> k)) as H.
  { apply Rsum_nonneg, Forall_fmap, Forall_true. intros y. simpl. apply Rle_0_sqr. }
  rewrite Rsum_shift_sq in H. pose proof (len_mean k) as Hm.
  set (S2 := Rsum (sq <$> k)) in *. rewrite <- Hm in *. set (mu := mean_of k) in *. set (n := len k) in *.
  assert (0 <= S2 - n * (mu * mu)) as H' by lra.
  apply Rmult_le_compat_l with (r := n) in H'; [|lra]. lra.
Qed.

(** The posterior scale stays positive, so every logarithm is defined. *)
Lemma nm_posterior_pos r v m s l : 0 < r -> 0 < s -> 0 < (nm_posterior (nm_of4 (r, v, m, s) l)).2.
Proof.
  intros Hr Hs. rewrite nm_posterior_spec by done. cbn [snd].
  pose proof (pos_INR (length l)) as Hn. pose proof (Rsum_sq_ge l) as Hsq.
  set (S2 := Rsum (sq <$> l)) in *. set (S1 := Rsum l) in *. set (n := len l) in *.
  assert ((r + n) * ((r * m + S1) / (r + n) * ((r * m + S1) / (r + n))) = (r * m + S1) * (r * m + S1) / (r + n)) as ->.
  { field. lra. }
  assert ((r * m + S1) * (r * m + S1) / (r + n) <= S2 + r * (m * m)); [|lra].
  apply (Rmult_le_reg_r (r + n)); [lra|].
  replace ((r * m + S1) * (r * m + S1) / (r + n) * (r + n)) with ((r * m + S1) * (r * m + S1)) by (field; lra).
  (* (rm+S1)^2 <= (S2 + r m^2)(r+n): r (S2 - 2 m S1 + n m^2) + (n S2 - S1^2) >= 0 *)
  assert (0 <= S2 - 2 * m * S1 + n * (m * m)) as H.
  { unfold S2, S1, n. rewrite <- Rsum_shift_sq.
    apply Rsum_nonneg, Forall_fmap, Forall_true. intros y. simpl. apply Rle_0_sqr. }
  apply (Rmult_le_compat_l r) in H; [|lra]. lra.
Qed.

Lemma nm_logp_of lg h l x :
  nm_logp lg (nm_of4 h l) x =
  (nm_score lg (nm_of4 h (x :: l)) - nm_score lg (nm_of4 h l), nm_of4 h l).
Proof.
  unfold nm_logp. rewrite nm_inc_of, nm_uninc_of. unfold nm_score.
  cbn [nm_of4 nm_r nm_v nm_m nm_s nm_N]. rewrite len_cons.
  f_equal. rewrite !Rplus_assoc. set (Z1 := logZ _ _ _ _). set (Z2 := logZ _ _ _ (nm_posterior _).2). lra.
Qed.

(** * ZeroMeanNormal *)
Definition zm_of2 (h : R * R) (l : list R) : zmn := Zmn h.1 h.2 (len l) (mean_square_of l).
Definition zm_of (h : pos2) (l : list R) : zmn := zm_of2 (`h) l.

Lemma len_mean_square l : len l * mean_square_of l = Rsum (sq <$> l).
Proof.
  destruct l as [|x l]; [unfold Rsum; simpl; lra|]. rewrite mean_square_of_alt. field.
  intros H. by apply len_zero in H.
Qed.
Lemma zm_inc_of h l x : zm_incorporate (zm_of2 h l) x 1 = zm_of2 h (x :: l).
Proof.
  unfold zm_incorporate, zm_of2. cbn [zm_alpha zm_beta zm_N zm_var].
  pose proof (pos_INR (length l)) as Hn.
  destruct (Req_EM_T (len l + 1) 0) as [E|_]; [lra|].
  rewrite (mean_square_of_alt (x :: l)), fmap_cons, Rsum_cons, len_cons, <- len_mean_square.
  f_equal; field; lra.
Qed.
Lemma zm_uninc_of h l x : zm_unincorporate (zm_of2 h (x :: l)) x = zm_of2 h l.
Proof.
  unfold zm_unincorporate, zm_incorporate, zm_of2. cbn [zm_alpha zm_beta zm_N zm_var].
  pose proof (pos_INR (length l)) as Hn. rewrite !len_cons.
  destruct (Req_EM_T (len l + 1 + -1) 0) as [E|E].
  { assert (l = []) as -> by (apply len_zero; lra). simpl. f_equal. lra. }
  rewrite (mean_square_of_alt (x :: l)), fmap_cons, Rsum_cons, len_cons, <- len_mean_square.
  f_equal; field; lra.
Qed.
Lemma zm_grid_pos h : h ∈ zm_grid -> 0 < h.1 /\ 0 < h.2.
Proof.
  intros H. apply elem_of_list_bind in H as (a & H & Ha).
  apply elem_of_list_fmap in H as (b & -> & Hb). simpl. split; by apply alpha_grid_pos.
Qed.
Lemma mean_square_nonneg l : 0 <= mean_square_of l.
Proof.
  destruct l as [|x l]; [simpl; lra|]. rewrite mean_square_of_alt.
  apply Rmult_le_pos.
  - apply Rsum_nonneg, Forall_fmap, Forall_true. intros y. simpl. apply Rle_0_sqr.
  - left. apply Rinv_0_lt_compat, lt_0_INR. simpl. lia.
Qed.

Lemma zm_chain lg a b l x : 0 < a -> 0 < b ->
  zm_score lg (zm_of2 (a, b) (x :: l)) - zm_score lg (zm_of2 (a, b) l) = zm_logp lg (zm_of2 (a, b) l) x.
Proof.
  intros Ha Hb. unfold zm_score, zm_logp, zm_logp_t, log_t_distribution, zm_of2.
  cbn [zm_alpha zm_beta zm_N zm_var fst snd]. rewrite len_cons.
  pose proof (pos_INR (length l)) as Hn. pose proof (mean_square_nonneg l) as Hm.
  pose proof (Rmult_le_pos _ _ Hm Hn) as Hmn. pose proof PI_RGT_0 as Hpi.
  assert (1 / 2 * mean_square_of (x :: l) * (len l + 1) = 1 / 2 * mean_square_of l * len l + x * x / 2) as ->.
  { rewrite <- len_cons with (x := x). pose proof (len_mean_square (x :: l)) as H1.
    pose proof (len_mean_square l) as H2. rewrite fmap_cons, Rsum_cons in H1. cbv beta in H1. lra. }
  set (n := len l) in *. set (an := a + n / 2) in *.
  set (bn := b + 1 / 2 * mean_square_of l * n) in *.
  assert (0 < an) as Han by (unfold an; lra). assert (0 < bn) as Hbn by (unfold bn; lra).
  replace (a + (n + 1) / 2) with (an + 1 / 2) by (unfold an; lra).
  replace ((2 * an + 1) / 2) with (an + 1 / 2) by lra.
  replace (2 * an / 2) with an by lra.
  replace (PI * (2 * an) * (bn / an)) with (2 * PI * bn) by (field; lra).
  replace (x * x / (bn / an * (2 * an))) with (x * x / (2 * bn)) by (field; lra).
  replace (b + (1 / 2 * mean_square_of l * n + x * x / 2)) with (bn * (1 + x * x / (2 * bn)))
    by (unfold bn; field; fold bn; lra).
  assert (0 < 1 + x * x / (2 * bn)) as Hpos.
  { assert (0 <= x * x / (2 * bn)); [|lra]. apply Rmult_le_pos; [apply Rle_0_sqr|].
    left. apply Rinv_0_lt_compat. lra. }
  rewrite !ln_mult by lra. lra.
Qed.

Lemma nm_score_empty lg h : 0 < h.1.1.1 -> nm_score lg (nm_of4 h []) = 0.
Proof.
  destruct h as [[[r v] m] s]. simpl. intros Hr. unfold nm_score. rewrite nm_posterior_spec by done.
  cbn [nm_of4 nm_r nm_v nm_m nm_s nm_N fst snd]. change (len []) with 0.
  change (Rsum []) with 0. change (Rsum (sq <$> [])) with 0. rewrite !Rplus_0_r.
  replace (s + r * (m * m) - r * (r * m / r * (r * m / r))) with s by (field; lra). lra.
Qed.

Definition nm_lawful lg smp : lawful (nm_dist lg smp).
Proof.
  refine {| law_hyp := nm_hyp; law_of := (nm_of : nm_hyp -> _ -> d_state (nm_dist lg smp));
            law_adm := fun _ => True |}.
  - intros h l l' Hp. unfold nm_of, nm_of4. rewrite (mean_of_perm _ _ Hp), (variance_of_perm _ _ Hp).
    by rewrite Hp.
  - intros h l v s' _. cbn [d_inc nm_dist]. unfold nm_of. rewrite nm_inc_of. naive_solver.
  - intros h l v _. cbn [d_uninc nm_dist]. unfold nm_of. by rewrite nm_uninc_of.
  - intros h l. apply R_is_zero_INR.
  - intros h l. apply R_is_pos_INR.
  - intros sp r. assert (0 < 1 /\ 0 < 1 /\ 0 < 1) as H by lra. exists (exist _ (1, 1, 0, 1) H). done.
  - intros h l r s r' Hadm E. cbn [d_resample nm_dist] in E. unfold nm_transition in E.
    apply obind_Ok in E as ([h1 r1] & E & [= <- <-]).
    apply grid_transition_Ok in E. exists (exist _ h1 (nm_grid_pos h1 E)).
    by destruct h1 as [[[? ?] ?] ?].
  - intros [h (H1 & H2)]. by apply nm_score_empty.
Defined.

Lemma zm_score_empty lg a b : zm_score lg (zm_of2 (a, b) []) = 0.
Proof.
  unfold zm_score, zm_of2. cbn [zm_alpha zm_beta zm_N zm_var fst snd]. change (len []) with 0.
  simpl mean_square_of. replace (a + 0 / 2) with a by lra.
  replace (b + 1 / 2 * 0 * 0) with b by lra. lra.
Qed.

Definition zm_lawful lg smp : lawful (zm_dist lg smp).
Proof.
  refine {| law_hyp := pos2; law_of := (zm_of : pos2 -> _ -> d_state (zm_dist lg smp));
            law_adm := fun _ => True |}.
  - intros h l l' Hp. unfold zm_of, zm_of2. rewrite (mean_square_of_perm _ _ Hp). by rewrite Hp.
  - intros h l v s' _. cbn [d_inc zm_dist]. unfold zm_of. rewrite zm_inc_of. naive_solver.
  - intros h l v _. cbn [d_uninc zm_dist]. unfold zm_of. by rewrite zm_uninc_of.
  - intros h l. apply R_is_zero_INR.
  - intros h l. apply R_is_pos_INR.
  - intros sp r. assert (0 < 1 /\ 0 < 1) as H by lra. by exists (exist _ (1, 1) H).
  - intros h l r s r' Hadm E. cbn [d_resample zm_dist] in E. unfold zm_transition in E.
    apply obind_Ok in E as ([h1 r1] & E & [= <- <-]).
    apply grid_transition_Ok in E. by exists (exist _ h1 (zm_grid_pos h1 E)).
  - intros [[a b] H]. apply zm_score_empty.
Defined.
