(** Property theorems C19-C23 and C45: the conjugate distributions. *)
From stdpp Require Import list strings gmap.
From Coq Require Import ZArith Reals Lra Lia Ascii.
From Verif Require Import M_base M_math M_dist M_distributions S_math S_crp S_dist S_relation
  P_base P_math P_dist P_lgamma P_beta_bernoulli P_dirichlet P_normal P_bigram P_bigram_sample.
Local Open Scope R_scope.

(** * C19: BetaBernoulli *)

(** After any history the object holds exactly the two counts of the values in
    it, and positive hyperparameters. *)
Theorem C19_state lg s l : dist_history (bb_dist lg) s l ->
  bb_N s = INR (length l) /\ bb_s s = Z.of_nat (occurrences true l) /\ 0 < bb_alpha s /\ 0 < bb_beta s.
Proof.
  intros H. destruct (history_lawful _ (bb_lawful lg) s l H) as [_ [[h [H1 H2]] ->]]. simpl. done.
Qed.
(** Order does not matter, nor does anything that was taken out again. *)
Theorem C19_order_independent lg s l s' l' :
  dist_history (bb_dist lg) s l -> dist_history (bb_dist lg) s' l' -> l ≡ₚ l' ->
  bb_alpha s = bb_alpha s' -> bb_beta s = bb_beta s' -> s = s'.
Proof.
  intros H H' Hp Ha Hb. destruct (C19_state lg s l H) as (Hn & Hs & _), (C19_state lg s' l' H') as (Hn' & Hs' & _).
  destruct s as [a1 b1 n1 s1], s' as [a2 b2 n2 s2]. cbn [bb_alpha bb_beta bb_N bb_s] in *. subst. rewrite (occurrences_perm true _ _ Hp), (Permutation_length Hp). done.
Qed.
Theorem C19_unincorporate_incorporate lg s l x : dist_history (bb_dist lg) s l ->
  bb_unincorporate (bb_incorporate s x 1) x = s.
Proof.
  intros H. destruct (history_lawful _ (bb_lawful lg) s l H) as [_ [h ->]].
  cbn [law_of bb_lawful]. by rewrite bb_inc_of, bb_uninc_of.
Qed.
Theorem C19_incorporate_unincorporate lg s l x : dist_history (bb_dist lg) s l -> x ∈ l ->
  bb_incorporate (bb_unincorporate s x) x 1 = s.
Proof.
  intros H Hx. destruct (history_lawful _ (bb_lawful lg) s l H) as [_ [h ->]].
  apply elem_of_Permutation in Hx as [l' Hp]. rewrite (law_perm _ (bb_lawful lg) h _ _ Hp).
  cbn [law_of bb_lawful]. by rewrite bb_uninc_of, bb_inc_of.
Qed.
Theorem C19_predictive lg s l : dist_history (bb_dist lg) s l ->
  exp (bb_logp s true) = (INR (occurrences true l) + bb_alpha s) / (INR (length l) + bb_alpha s + bb_beta s) /\
  exp (bb_logp s false) = (INR (occurrences false l) + bb_beta s) / (INR (length l) + bb_alpha s + bb_beta s) /\
  exp (bb_logp s true) + exp (bb_logp s false) = 1.
Proof.
  intros H. destruct (C19_state lg s l H) as (Hn & Hs & Ha & Hb).
  destruct (history_lawful _ (bb_lawful lg) s l H) as [_ [h ->]].
  split_and!; [| |apply bb_predictive].
  all: destruct (bb_of_pos h l) as [H1 H2]; cbn [law_of bb_lawful] in *; unfold bb_logp.
  all: pose proof (pos_INR (length l)); unfold Rminus at 1; rewrite exp_plus, exp_Ropp, !exp_ln by (try done; simpl in *; lra).
  - rewrite Hs, <- INR_IZR_INZ, Hn. done.
  - rewrite Hs, <- INR_IZR_INZ, Hn. unfold Rdiv. f_equal. f_equal.
    assert (occurrences true l + occurrences false l = length l)%nat as <-.
    { clear. induction l as [|[] l IH]; [done|rewrite !occurrences_cons; simpl; lia..]. }
    rewrite plus_INR. lra.
Qed.
Theorem C19_logp_is_score_increase lg s l x : is_lgamma lg -> dist_history (bb_dist lg) s l ->
  bb_score lg (bb_incorporate s x 1) - bb_score lg s = bb_logp s x.
Proof.
  intros Hlg H. destruct (history_lawful _ (bb_lawful lg) s l H) as [_ [h ->]].
  cbn [law_of bb_lawful]. rewrite bb_inc_of. by apply bb_chain.
Qed.
Theorem C19_sample_weights lg s l : dist_history (bb_dist lg) s l ->
  bb_sample_weights s = [exp (bb_logp s false); exp (bb_logp s true)].
Proof.
  intros H. destruct (C19_predictive lg s l H) as (_ & _ & Hsum). unfold bb_sample_weights. f_equal. lra.
Qed.
(** [sample] draws an index with these weights and returns the value the weight belongs to. *)
Theorem C19_sample_draws lg s l r x r' : dist_history (bb_dist lg) s l -> bb_sample s r = Ok (x, r') ->
  exists i, choose_index 2 r = (i, r') /\ bb_sample_weights s !! i = Some (exp (bb_logp s x)).
Proof.
  intros Hs H. unfold bb_sample in H. rewrite (C19_sample_weights lg s l Hs) in *. cbn [length] in H.
  destruct (choose_index 2 r) as [i r0] eqn:E. apply obind_Ok in H as (y & Hy & [= <- <-]).
  exists i. split; [done|]. destruct i as [|[|i]]; simpl in Hy; [by injection Hy as <-|by injection Hy as <-|done].
Qed.
Example C19_history_example : let s := bb_incorporate (bb_incorporate (bb_incorporate bb_new true 1) false 1) true 1 in
  dist_history (bb_dist some_lgamma) s [true; false; true] /\ is_lgamma some_lgamma /\
  exp (bb_logp s true) = 3 / 5.
Proof.
  set (s := bb_incorporate _ _ _). 
  assert (dist_history (bb_dist some_lgamma) s [true; false; true]) as H.
  { eapply (hist_inc _ _ _ true); [|reflexivity]. eapply (hist_inc _ _ _ false); [|reflexivity].
    eapply (hist_inc _ _ _ true); [|reflexivity]. apply (hist_new (bb_dist some_lgamma) tt []). }
  split; [exact H|]. split; [apply some_lgamma_ok|].
  destruct (C19_predictive _ _ _ H) as [-> _]. unfold s. simpl. lra.
Qed.

(** * C20: DirichletCategorical *)
Theorem C20_state lg k s l : dist_history (dc_dist lg k) s l ->
  Forall (fun x => 0 <= x < Z.of_nat k)%Z l /\
  length (dc_counts s) = k /\
  (forall x, (x < k)%nat -> dc_counts s !! x = Some (INR (occurrences (Z.of_nat x) l))) /\
  dc_N s = INR (length l) /\ 0 < dc_alpha s.
Proof.
  intros H. destruct (history_lawful _ (dc_lawful lg k) s l H) as [Ha [[a Hpos] ->]].
  split; [exact Ha|]. simpl. split; [apply count_list_length|]. split; [apply count_list_lookup|]. done.
Qed.
Theorem C20_order_independent lg k s l s' l' :
  dist_history (dc_dist lg k) s l -> dist_history (dc_dist lg k) s' l' -> l ≡ₚ l' ->
  dc_alpha s = dc_alpha s' -> s = s'.
Proof.
  intros H H' Hp Ha. destruct (history_lawful _ (dc_lawful lg k) s l H) as [_ [[a Hpos] ->]].
  destruct (history_lawful _ (dc_lawful lg k) s' l' H') as [_ [[a' Hpos'] ->]].
  simpl in Ha. subst. by apply dc_of_perm.
Qed.
(** Values outside [0, k) are rejected (by assertion), values inside accepted and undone. *)
Theorem C20_range lg k s l x w : dist_history (dc_dist lg k) s l ->
  if decide (0 <= x < Z.of_nat k)%Z then
    exists s', dc_incorporate s x w = Ok s' /\ dc_incorporate s' x (- w) = Ok s
  else dc_incorporate s x w = AssertFail /\ dc_logp s x = AssertFail.
Proof.
  intros H. destruct (history_lawful _ (dc_lawful lg k) s l H) as [_ [h ->]]. cbn [law_of dc_lawful].
  destruct (decide _) as [Hx|Hx].
  - assert (exists s', dc_incorporate (dc_of k (`h) l) x w = Ok s') as [s' Hs'].
    { unfold dc_incorporate. rewrite dc_in_range_of, bool_decide_eq_true_2 by done.
      cbn [dc_of dc_counts obind assert_]. rewrite count_list_lookup by lia. simpl. eauto. }
    exists s'. split; [done|]. by eapply dc_incorporate_inverse.
  - unfold dc_incorporate, dc_logp. rewrite dc_in_range_of, bool_decide_eq_false_2 by done. done.
Qed.
Theorem C20_predictive lg k s l x : dist_history (dc_dist lg k) s l -> (x < k)%nat ->
  exists p, dc_logp s (Z.of_nat x) = Ok p /\
    exp p = (dc_alpha s + INR (occurrences (Z.of_nat x) l)) / (INR (length l) + dc_alpha s * INR k) /\ 0 < exp p.
Proof.
  intros H Hx. destruct (history_lawful _ (dc_lawful lg k) s l H) as [_ [[a Hpos] ->]]. cbn [law_of dc_lawful proj1_sig].
  eexists. rewrite dc_logp_of by (unfold in_cats; lia). split; [done|]. split; [|apply exp_pos].
  pose proof (pos_INR (length l)). pose proof (pos_INR (occurrences (Z.of_nat x) l)).
  pose proof (Rmult_lt_0_compat a (INR k) Hpos (lt_0_INR k ltac:(lia))).
  unfold Rminus. rewrite exp_plus, exp_Ropp, !exp_ln by lra. done.
Qed.
Theorem C20_predictive_sums_to_one lg k s l : dist_history (dc_dist lg k) s l -> (0 < k)%nat ->
  Rsum ((fun i => match dc_logp s (Z.of_nat i) with Ok p => exp p | _ => 0 end) <$> seq 0 k) = 1.
Proof.
  intros H Hk. destruct (history_lawful _ (dc_lawful lg k) s l H) as [Ha [[a Hpos] ->]].
  by apply dc_predictive.
Qed.
Theorem C20_logp_is_score_increase lg k s l x p s' : is_lgamma lg -> dist_history (dc_dist lg k) s l ->
  dc_logp s x = Ok p -> dc_incorporate s x 1 = Ok s' -> dc_score lg s' - dc_score lg s = p.
Proof.
  intros Hlg H Hp Hi. destruct (history_lawful _ (dc_lawful lg k) s l H) as [Ha [[a Hpos] ->]].
  cbn [law_of dc_lawful proj1_sig] in *. pose proof (dc_inc_Ok _ _ _ _ _ _ Hi) as Hx.
  rewrite dc_inc_of in Hi by done. injection Hi as <-. by apply dc_chain.
Qed.
(** [sample] weighs category [x] by its predictive probability (up to the
    common factor [N + alpha k]). *)
Theorem C20_sample_weights lg k s l x p : dist_history (dc_dist lg k) s l -> (x < k)%nat ->
  dc_logp s (Z.of_nat x) = Ok p ->
  dc_sample_weights s !! x = Some (exp p * (INR (length l) + dc_alpha s * INR k)).
Proof.
  intros H Hx Hp. destruct (C20_predictive lg k s l x H Hx) as (p' & Hp' & He & _).
  rewrite Hp in Hp'. injection Hp' as ->. rewrite He.
  destruct (C20_state lg k s l H) as (_ & _ & Hc & _ & Ha).
  unfold dc_sample_weights. rewrite list_lookup_fmap, Hc by done. simpl. f_equal.
  rewrite INR_IZR_INZ, to_int_IZR.
  pose proof (Rmult_lt_0_compat _ (INR k) Ha (lt_0_INR k ltac:(lia))). pose proof (pos_INR (length l)). field. lra.
Qed.
Theorem C20_sample_draws lg k s l r x r' : dist_history (dc_dist lg k) s l -> (0 < k)%nat -> dc_sample s r = (x, r') ->
  exists i p, choose_index k r = (i, r') /\ x = Z.of_nat i /\ (i < k)%nat /\ dc_logp s x = Ok p /\
    dc_sample_weights s !! i = Some (exp p * (INR (length l) + dc_alpha s * INR k)).
Proof.
  intros Hs Hk H. unfold dc_sample in H. destruct (C20_state lg k s l Hs) as (_ & Hl & _).
  unfold dc_sample_weights at 1 in H. rewrite fmap_length, Hl in H.
  destruct (choose_index k r) as [i r0] eqn:E. injection H as <- <-.
  assert (i < k)%nat as Hi.
  { eapply choose_index_lt; [done|lia]. }
  destruct (C20_predictive lg k s l i Hs Hi) as (p & Hp & _). exists i, p. split_and!; try done.
  by eapply C20_sample_weights.
Qed.
(** With a fractional weight the truncation to [size_t] makes [sample] ignore it. *)
Theorem C20_sample_weights_fractional_refuted : exists s p,
  dc_incorporate (dc_new 2) 0 (1 / 2) = Ok s /\ dc_logp s 0 = Ok p /\ exp p = 3 / 5 /\
  dc_sample_weights s = [1; 1].
Proof.
  assert (to_int (0 + 1 / 2) = 0%Z) as H0.
  { unfold to_int. destruct (Rle_dec 0 (0 + 1 / 2)); [|lra]. unfold Int_part.
    rewrite <- (tech_up (0 + 1 / 2) 1); [done| |]; lra. }
  exists (DC 1 [0 + 1 / 2; 0] (0 + 1 / 2)).
  exists (ln (1 + (0 + 1 / 2)) - ln (0 + 1 / 2 + 1 * INR 2)).
  split; [done|]. split; [done|]. split.
  - unfold Rminus. rewrite exp_plus, exp_Ropp, !exp_ln by (simpl; lra). simpl. lra.
  - unfold dc_sample_weights. cbn [dc_counts dc_alpha fmap list_fmap].
    rewrite H0, (to_int_IZR 0). by rewrite !Rplus_0_l.
Qed.
Theorem C20_nearest lg k s l x : dist_history (dc_dist lg k) s l -> (0 < k)%nat ->
  (0 <= dc_nearest s x < Z.of_nat k)%Z /\
  ((0 <= x < Z.of_nat k)%Z -> dc_nearest s x = x) /\
  (forall y, (0 <= y < Z.of_nat k)%Z -> (Z.abs (dc_nearest s x - x) <= Z.abs (y - x))%Z).
Proof.
  intros H Hk. destruct (C20_state lg k s l H) as (_ & Hl & _). unfold dc_nearest. rewrite Hl.
  split_and!; intros; repeat case_bool_decide; lia.
Qed.
Example C20_history_example : exists s, dist_history (dc_dist some_lgamma 3) s [2; 0; 2]%Z /\
  match dc_logp s 2 with Ok p => exp p = 1 / 2 | _ => False end.
Proof.
  exists (dc_of 3 1 [2; 0; 2]%Z). split.
  - eapply (hist_inc _ _ _ 2%Z); [|by apply dc_inc_of]. eapply (hist_inc _ _ _ 0%Z); [|by apply dc_inc_of].
    eapply (hist_inc _ _ _ 2%Z); [|by apply dc_inc_of]. apply (hist_new (dc_dist some_lgamma 3) tt []).
  - rewrite dc_logp_of by (unfold in_cats; lia). unfold Rminus.
    rewrite exp_plus, exp_Ropp, !exp_ln by (simpl; lra). simpl. lra.
Qed.

(** * C21: Normal *)
Theorem C21_state lg smp s l : dist_history (nm_dist lg smp) s l ->
  nm_N s = INR (length l) /\ nm_mean s = mean_of l /\ nm_var s = variance_of l /\
  0 < nm_r s /\ 0 < nm_v s /\ 0 < nm_s s.
Proof.
  intros H. destruct (history_lawful _ (nm_lawful lg smp) s l H) as [_ [[h (H1 & H2 & H3)] ->]]. simpl. done.
Qed.
Theorem C21_order_independent lg smp s l s' l' :
  dist_history (nm_dist lg smp) s l -> dist_history (nm_dist lg smp) s' l' -> l ≡ₚ l' ->
  nm_r s = nm_r s' -> nm_v s = nm_v s' -> nm_m s = nm_m s' -> nm_s s = nm_s s' -> s = s'.
Proof.
  intros H H' Hp E1 E2 E3 E4.
  destruct (C21_state lg smp s l H) as (Hn & Hm & Hv & _), (C21_state lg smp s' l' H') as (Hn' & Hm' & Hv' & _).
  destruct s as [r1 v1 m1 s1 n1 mu1 va1], s' as [r2 v2 m2 s2 n2 mu2 va2]. cbn [nm_r nm_v nm_m nm_s nm_N nm_mean nm_var] in *. subst.
  by rewrite (mean_of_perm _ _ Hp), (variance_of_perm _ _ Hp), (Permutation_length Hp).
Qed.
Theorem C21_unincorporate_incorporate lg smp s l x : dist_history (nm_dist lg smp) s l ->
  nm_unincorporate (nm_incorporate s x 1) x = s.
Proof.
  intros H. destruct (history_lawful _ (nm_lawful lg smp) s l H) as [_ [h ->]].
  cbn [law_of nm_lawful]. unfold nm_of. by rewrite nm_inc_of, nm_uninc_of.
Qed.
(** logp is the increase of the score, and evaluating it leaves the object as it was. *)
Theorem C21_logp lg smp s l x : dist_history (nm_dist lg smp) s l ->
  nm_logp lg s x = (nm_score lg (nm_incorporate s x 1) - nm_score lg s, s).
Proof.
  intros H. destruct (history_lawful _ (nm_lawful lg smp) s l H) as [_ [h ->]].
  cbn [law_of nm_lawful]. unfold nm_of. rewrite nm_inc_of. apply nm_logp_of.
Qed.
(** The posterior hyperparameters of the normal-inverse-gamma model. *)
Theorem C21_posterior lg smp s l : dist_history (nm_dist lg smp) s l ->
  let m' := (nm_r s * nm_m s + Rsum l) / (nm_r s + INR (length l)) in
  let s' := nm_s s + Rsum ((fun x => x * x) <$> l) + nm_r s * (nm_m s * nm_m s)
            - (nm_r s + INR (length l)) * (m' * m') in
  nm_posterior s = (m', s') /\ 0 < s'.
Proof.
  intros H. destruct (history_lawful _ (nm_lawful lg smp) s l H) as [_ [[h0 H0] ->]].
  destruct h0 as [[[r v] m] s0], H0 as (H1 & H2 & H3).
  cbn [law_of nm_lawful]. unfold nm_of. cbn [proj1_sig fst snd] in *. pose proof (nm_posterior_spec r v m s0 l H1) as E.
  cbv zeta. split; [exact E|]. pose proof (nm_posterior_pos r v m s0 l H1 H3) as Hp. rewrite E in Hp. exact Hp.
Qed.
(** [sample] draws a precision from a gamma distribution, then the value from a normal
    around the posterior mean.  Whatever the precision, gamma density times normal
    density is [exp (logp x)] times another gamma density: so, gamma densities having
    mass one, [exp logp] is the density of what [sample] returns. *)
Theorem C21_sample_density lg smp s l : dist_history (nm_dist lg smp) s l ->
  exists shape scale mean rn, 0 < shape /\ 0 < scale /\ 0 < rn /\
  (forall smp' r, nm_sample smp' s r = smp' shape scale mean rn r) /\
  forall x, exists shape' scale', 0 < shape' /\ 0 < scale' /\ forall rho, 0 < rho ->
    gamma_pdf lg shape scale rho * normal_pdf mean (1 / (rho * rn) + 1 / rho) x =
    exp (nm_logp lg s x).1 * gamma_pdf lg shape' scale' rho.
Proof.
  intros H. destruct (C21_state lg smp s l H) as (HN & _ & _ & Hr & Hv & Hs).
  pose proof (pos_INR (length l)) as Hn.
  destruct (C21_posterior lg smp s l H) as [Hp Hs'].
  set (m' := (nm_r s * nm_m s + Rsum l) / (nm_r s + INR (length l))) in *.
  set (s1 := nm_s s + _ + _ - _) in *. set (rn := nm_r s + INR (length l)) in *. set (nu := nm_v s + INR (length l)).
  exists (nu / 2), (2 / s1), m', rn. split_and!; [unfold nu; lra|by apply Rdiv_lt_0_compat; lra|unfold rn; lra| |].
  { intros smp' r. unfold nm_sample. rewrite Hp, HN. done. }
  intros x. assert (dist_history (nm_dist lg smp) (nm_incorporate s x 1) (x :: l)) as H1 by (by eapply (hist_inc _ _ _ x)).
  destruct (C21_posterior lg smp _ _ H1) as [Hp1 Hs1].
  assert (nm_r (nm_incorporate s x 1) = nm_r s /\ nm_m (nm_incorporate s x 1) = nm_m s /\ nm_s (nm_incorporate s x 1) = nm_s s)
    as (E1 & E2 & E3) by (unfold nm_incorporate; by destruct (Req_EM_T _ _)).
  rewrite E1, E2, E3, fmap_cons, !Rsum_cons, len_cons in Hp1, Hs1.
  assert (0 < rn) as Hrn by (unfold rn; lra). cbv beta in Hp1, Hs1.
  set (s2 := nm_s s + (x * x + _) + _ - _) in *.
  assert (s2 = s1 + rn / (rn + 1) * ((x - m') * (x - m'))) as Hs2.
  { unfold s2, s1. assert (nm_r s * nm_m s + Rsum l = m' * rn) as Em by (unfold m', rn; field; lra).
    replace (nm_r s * nm_m s + (x + Rsum l)) with (m' * rn + x) by lra.
    replace (nm_r s + (INR (length l) + 1)) with (rn + 1) by (unfold rn; lra). fold rn.
    clearbody m' rn. field. lra. }
  exists ((nu + 1) / 2), (2 / s2). split_and!; [unfold nu; lra|by apply Rdiv_lt_0_compat; lra|].
  intros rho Hrho. assert (0 < nu) as Hnu by (unfold nu; lra).
  unfold gamma_pdf, normal_pdf. unfold nm_logp. cbn [fst]. rewrite (C21_unincorporate_incorporate lg smp s l x H), Hp, Hp1, HN.
  cbn [snd]. fold rn nu. pose proof PI_RGT_0 as HPI.
  assert (0 < 1 / (rho * rn) + 1 / rho) as Hvar by (apply Rplus_lt_0_compat; apply Rdiv_lt_0_compat; nra).
  rewrite <- (exp_ln (sqrt _)) by (apply sqrt_lt_R0; nra).
  assert (forall y, 0 < y -> ln (sqrt y) = 1 / 2 * ln y) as Hsq.
  { intros y Hy. rewrite <- (sqrt_sqrt y) at 2 by lra. rewrite ln_mult by (by apply sqrt_lt_R0). lra. }
  assert (forall a b, exp a / exp b = exp (a - b)) as Hed.
  { intros a b. unfold Rminus. by rewrite exp_plus, exp_Ropp. }
  rewrite Hsq by nra. rewrite Hed, <- !exp_plus. f_equal.
  replace (1 / (rho * rn) + 1 / rho) with ((rn + 1) / (rho * rn)) by (field; lra).
  unfold logZ.
  assert (forall y, 0 < y -> ln (2 / y) = ln 2 - ln y) as Hd.
  { intros y Hy. unfold Rdiv. rewrite ln_mult, ln_Rinv by (try apply Rinv_0_lt_compat; lra). lra. }
  rewrite !Hd by done.
  assert (ln ((rn + 1) / (rho * rn)) = ln (rn + 1) - ln rho - ln rn) as Hl.
  { unfold Rdiv. rewrite ln_mult, ln_Rinv, ln_mult by (try apply Rinv_0_lt_compat; nra). lra. }
  rewrite (ln_mult (2 * PI)) by (try apply Rdiv_lt_0_compat; nra). rewrite Hl.
  replace (1 / 2 * nu) with (nu / 2) by lra. replace (1 / 2 * (nu + 1)) with ((nu + 1) / 2) by lra.
  assert (- ((x - m') * (x - m')) / (2 * ((rn + 1) / (rho * rn))) = rho * (s1 - s2) / 2) as ->.
  { rewrite Hs2. field. lra. }
  rewrite (ln_mult 2 PI) by lra.
  replace (rho / (2 / s1)) with (rho * s1 / 2) by (field; lra).
  replace (rho / (2 / s2)) with (rho * s2 / 2) by (field; lra). lra.
Qed.
Theorem C21_score_empty lg smp s : dist_history (nm_dist lg smp) s [] -> nm_score lg s = 0.
Proof.
  intros H. destruct (history_lawful _ (nm_lawful lg smp) s [] H) as [_ [[h (H1 & H2)] ->]].
  destruct h as [[[r v] m] s0]. by apply nm_score_empty.
Qed.
Example C21_history_example lg smp :
  dist_history (nm_dist lg smp) (nm_unincorporate (nm_incorporate (nm_incorporate (nm_incorporate nm_new 1 1) 5 1) 3 1) 5) [3; 1] /\
  mean_of [3; 1] = 2 /\ variance_of [3; 1] = 1.
Proof.
  split; [|split; unfold variance_of, mean_of, Rsum; simpl; lra].
  eapply (hist_uninc _ _ [3; 5; 1] 5); [|by rewrite Permutation_swap|reflexivity].
  eapply (hist_inc _ _ _ 3); [|reflexivity]. eapply (hist_inc _ _ _ 5); [|reflexivity].
  eapply (hist_inc _ _ _ 1); [|reflexivity]. apply (hist_new (nm_dist lg smp) tt []).
Qed.

(** * C22: ZeroMeanNormal *)
Theorem C22_state lg smp s l : dist_history (zm_dist lg smp) s l ->
  zm_N s = INR (length l) /\ zm_var s = mean_square_of l /\ 0 < zm_alpha s /\ 0 < zm_beta s.
Proof.
  intros H. destruct (history_lawful _ (zm_lawful lg smp) s l H) as [_ [[h (H1 & H2)] ->]]. simpl. done.
Qed.
Theorem C22_order_independent lg smp s l s' l' :
  dist_history (zm_dist lg smp) s l -> dist_history (zm_dist lg smp) s' l' -> l ≡ₚ l' ->
  zm_alpha s = zm_alpha s' -> zm_beta s = zm_beta s' -> s = s'.
Proof.
  intros H H' Hp E1 E2.
  destruct (C22_state lg smp s l H) as (Hn & Hv & _), (C22_state lg smp s' l' H') as (Hn' & Hv' & _).
  destruct s as [a1 b1 n1 s1], s' as [a2 b2 n2 s2]. cbn [zm_alpha zm_beta zm_N zm_var] in *. subst.
  by rewrite (mean_square_of_perm _ _ Hp), (Permutation_length Hp).
Qed.
Theorem C22_unincorporate_incorporate lg smp s l x : dist_history (zm_dist lg smp) s l ->
  zm_unincorporate (zm_incorporate s x 1) x = s.
Proof.
  intros H. destruct (history_lawful _ (zm_lawful lg smp) s l H) as [_ [h ->]].
  cbn [law_of zm_lawful]. unfold zm_of. by rewrite zm_inc_of, zm_uninc_of.
Qed.
Theorem C22_logp_is_score_increase lg smp s l x : dist_history (zm_dist lg smp) s l ->
  zm_score lg (zm_incorporate s x 1) - zm_score lg s = zm_logp lg s x.
Proof.
  intros H. destruct (history_lawful _ (zm_lawful lg smp) s l H) as [_ [[h0 H0] ->]].
  destruct h0 as [a b], H0 as (H1 & H2).
  cbn [law_of zm_lawful]. unfold zm_of. cbn [proj1_sig]. rewrite zm_inc_of. by apply zm_chain.
Qed.
(** The Student-t that [sample] draws from is the one [logp] scores exactly when
    the squares of the data sum to zero. *)
Theorem C22_sample_matches_logp_iff lg smp s l : dist_history (zm_dist lg smp) s l ->
  zm_sample_t s = zm_logp_t s <-> mean_square_of l = 0.
Proof.
  intros H. destruct (C22_state lg smp s l H) as (Hn & Hv & Ha & Hb). unfold zm_sample_t, zm_logp_t.
  rewrite Hn, Hv. pose proof (pos_INR (length l)).
  split; intros E.
  - injection E as E. apply (f_equal (fun z => z * (zm_alpha s + INR (length l) / 2))) in E.
    unfold Rdiv in E. rewrite !Rmult_assoc, !Rinv_l, !Rmult_1_r in E by lra.
    destruct l as [|x l]; [done|]. assert (0 < INR (length (x :: l))) by (apply lt_0_INR; simpl; lia).
    assert (mean_square_of (x :: l) * INR (length (x :: l)) = 0) as E0 by lra.
    apply Rmult_integral in E0 as [|]; lra.
  - rewrite E. f_equal. f_equal. lra.
Qed.
Theorem C22_sample_matches_logp_refuted lg smp : exists s l, dist_history (zm_dist lg smp) s l /\
  (zm_sample_t s).2 <> (zm_logp_t s).2.
Proof.
  exists (zm_incorporate zm_new 1 1), [1].
  assert (dist_history (zm_dist lg smp) (zm_incorporate zm_new 1 1) [1]) as H.
  { eapply (hist_inc _ _ _ 1); [|reflexivity]. apply (hist_new (zm_dist lg smp) tt []). }
  split; [exact H|]. intros E. assert (mean_square_of [1] = 0) as E0.
  { apply (C22_sample_matches_logp_iff lg smp _ _ H). unfold zm_sample_t, zm_logp_t in *.
    cbn [snd] in E. by rewrite E. }
  unfold mean_square_of, Rsum in E0. simpl in E0. lra.
Qed.

(** * C23: Bigram *)
(** The model is determined by the multiset of strings in it: how often each
    character (or the start symbol) is followed by each character (or the end). *)
Theorem C23_state nearest lg ml mn mx s l : dist_history (bg_dist_with nearest lg ml mn mx) s l ->
  Forall (bg_adm ml mn mx) l /\ bg_N s = INR (length l) /\
  bg_max_length s = ml /\ bg_min_char s = mn /\ bg_max_char s = mx /\ 0 < bg_alpha s /\
  forall i j, (i <= num_of mn mx)%nat -> (j <= num_of mn mx)%nat ->
    exists d, bg_dists s !! i = Some d /\ dc_alpha d = bg_alpha s /\
      dc_counts d !! j = Some (INR (occurrences (i, j) (concat (trans mn mx <$> l)))).
Proof.
  intros H. destruct (history_lawful _ (bg_lawful nearest lg ml mn mx) s l H) as [Ha [[a Hpos] ->]].
  split; [exact Ha|]. cbn [law_of bg_lawful proj1_sig bg_of bg_N bg_max_length bg_min_char bg_max_char bg_alpha bg_dists].
  split_and!; try done. intros i j Hi Hj.
  eexists. rewrite dists_of_lookup by lia. split; [done|]. split; [done|].
  cbn [dc_of dc_counts]. rewrite count_list_lookup by lia. f_equal. f_equal.
  generalize (concat (trans mn mx <$> l)) as P. clear. intros P. induction P as [|[x y] P IH]; [done|].
  rewrite succs_cons, occurrences_cons. cbn [fst snd]. destruct (decide (x = i)) as [->|Hx].
  - rewrite occurrences_cons, IH. f_equal. repeat destruct (decide _) as [?|?]; try done; naive_solver lia.
  - rewrite IH. rewrite decide_False; [done|]. congruence.
Qed.
Theorem C23_order_independent nearest lg ml mn mx s l s' l' :
  dist_history (bg_dist_with nearest lg ml mn mx) s l -> dist_history (bg_dist_with nearest lg ml mn mx) s' l' ->
  l ≡ₚ l' -> bg_alpha s = bg_alpha s' -> s = s'.
Proof.
  intros H H' Hp E. destruct (history_lawful _ (bg_lawful nearest lg ml mn mx) s l H) as [_ [[a Hpos] ->]].
  destruct (history_lawful _ (bg_lawful nearest lg ml mn mx) s' l' H') as [_ [[a' Hpos'] ->]].
  simpl in E. subst. by apply bg_of_perm.
Qed.
Theorem C23_unincorporate_incorporate nearest lg ml mn mx s l x s' :
  dist_history (bg_dist_with nearest lg ml mn mx) s l -> bg_incorporate s x 1 = Ok s' -> bg_unincorporate s' x = Ok s.
Proof.
  intros H Hi. destruct (history_lawful _ (bg_lawful nearest lg ml mn mx) s l H) as [_ [h ->]].
  cbn [law_of bg_lawful] in *. pose proof (bg_inc_Ok _ _ _ _ _ _ _ _ Hi) as Hx. rewrite bg_inc_of in Hi by done.
  injection Hi as <-. by apply bg_uninc_of.
Qed.
(** Exactly the strings of the alphabet that are not too long are accepted. *)
Theorem C23_accepts nearest lg ml mn mx s l x : dist_history (bg_dist_with nearest lg ml mn mx) s l ->
  (exists s', bg_incorporate s x 1 = Ok s') <->
  (ml = 0 \/ String.length x <= ml)%nat /\
  Forall (fun c => mn <= char_val c <= mx)%Z (String.list_ascii_of_string x).
Proof.
  intros H. destruct (history_lawful _ (bg_lawful nearest lg ml mn mx) s l H) as [_ [h ->]]. cbn [law_of bg_lawful].
  split; [intros [s' Hi]; by apply bg_inc_Ok in Hi|]. intros Hx. eexists. by apply bg_inc_of.
Qed.
(** Scoring a string leaves the model unchanged and gives the increase of the score. *)
Theorem C23_logp nearest lg ml mn mx s l x p s1 s' : is_lgamma lg ->
  dist_history (bg_dist_with nearest lg ml mn mx) s l ->
  bg_logp s x = Ok (p, s1) -> s1 = s /\
  (bg_incorporate s x 1 = Ok s' -> bg_score lg s' - bg_score lg s = p).
Proof.
  intros Hlg H Hp. destruct (history_lawful _ (bg_lawful nearest lg ml mn mx) s l H) as [_ [[a Ha] ->]].
  cbn [law_of bg_lawful proj1_sig] in *. pose proof (bg_logp_Ok _ _ _ _ _ _ _ Hp) as Hc.
  rewrite (bg_logp_of lg) in Hp by done. injection Hp as <- <-. split; [done|].
  intros Hi. pose proof (bg_inc_Ok _ _ _ _ _ _ _ _ Hi) as Hx. rewrite bg_inc_of in Hi by done. by injection Hi as <-.
Qed.
(** Sampling leaves the model unchanged unless the maximum length was reached. *)
Theorem C23_sample_unchanged nearest lg ml mn mx s l r x s' r' :
  (0 <= mn <= mx)%Z -> (mx < 128)%Z -> dist_history (bg_dist_with nearest lg ml mn mx) s l ->
  bg_sample s r = Ok (x, s', r') -> ml = 0%nat \/ String.length x <> ml -> s' = s.
Proof.
  intros Hm Hx H E Hne. destruct (history_lawful _ (bg_lawful nearest lg ml mn mx) s l H) as [_ [[a Ha] ->]].
  cbn [law_of bg_lawful proj1_sig] in *.
  pose proof (bg_sample_spec ml mn mx a ltac:(lia) Hx ltac:(lia) l r x s' r' E) as Hs.
  rewrite bool_decide_eq_false_2 in Hs by tauto. done.
Qed.
(** When it is reached, the sampler takes out a transition it never put in: for
    every model with a maximum length some run damages the model. *)
Theorem C23_sample_unchanged_refuted nearest lg ml mn mx s l :
  (0 <= mn <= mx)%Z -> (mx < 128)%Z -> dist_history (bg_dist_with nearest lg ml mn mx) s l -> ml <> 0%nat ->
  exists r x s' r', bg_sample s r = Ok (x, s', r') /\ s' <> s /\
    exists i d d', bg_dists s !! i = Some d /\ bg_dists s' !! i = Some d' /\ dc_N d' = dc_N d - 1.
Proof.
  intros Hm Hx H Hml. destruct (history_lawful _ (bg_lawful nearest lg ml mn mx) s l H) as [_ [[a Ha] ->]].
  cbn [law_of bg_lawful proj1_sig] in *.
  destruct (bg_sample_max ml mn mx a ltac:(lia) Hx ltac:(lia) l Hml) as (x & s' & r' & E & Hl).
  exists [], x, s', r'. split; [done|].
  pose proof (bg_sample_spec ml mn mx a ltac:(lia) Hx ltac:(lia) l [] x s' r' E) as Hs.
  rewrite bool_decide_eq_true_2 in Hs by done. destruct Hs as (c & ds & Hc & Hds & Hs').
  unfold bg_inc_pair in Hds. apply obind_Ok in Hds as (d & Hd & Hds). apply idx_Ok in Hd. cbn [fst snd] in *.
  apply obind_Ok in Hds as (d' & Hd' & [= <-]). unfold dc_incorporate in Hd'.
  apply obind_Ok in Hd' as (_ & _ & Hd'). apply obind_Ok in Hd' as (c0 & _ & [= <-]).
  assert (exists i d1 d', bg_dists (bg_of ml mn mx a l) !! i = Some d1 /\
    bg_dists s' !! i = Some d' /\ dc_N d' = dc_N d1 - 1) as Hex.
  { eexists _, d, _. split; [exact Hd|]. rewrite Hs'. cbn [bg_set_dists bg_dists].
    split; [apply list_lookup_insert; by eapply lookup_lt_Some|]. cbn [dc_N]. lra. }
  split; [|exact Hex]. intros E2. destruct Hex as (i & d1 & d2 & H1 & H2 & H3). rewrite E2 in H2.
  rewrite H1 in H2. injection H2 as ->. lra.
Qed.
Example C23_history_example : exists s, dist_history (bg_dist some_lgamma 80) s ["ab"%string; "a"%string].
Proof.
  eexists. eapply (hist_inc _ _ _ "ab"%string).
  - eapply (hist_inc _ _ _ "a"%string); [apply (hist_new (bg_dist some_lgamma 80) tt [])|].
    cbn [d_inc d_new bg_dist bg_dist_with fst]. rewrite bg_new_of. apply bg_inc_of.
    split; [simpl; lia|]. repeat constructor; vm_compute; done.
  - apply bg_inc_of. split; [simpl; lia|]. repeat constructor; vm_compute; done.
Qed.
(** StringNat::nearest keeps the digits but does not respect the maximum length:
    its result may be a string the distribution rejects. *)
Theorem C23_string_nat_nearest_refuted : exists x,
  bg_incorporate (bg_new 20 48 57) (string_nat_nearest x) 1 = Exits.
Proof. exists "123456789012345678901"%string. vm_compute. done. Qed.
Theorem C23_string_nat_nearest lg ml s l x : dist_history (string_nat_dist lg ml) s l ->
  (ml = 0 \/ String.length x <= ml)%nat ->
  (exists s', bg_incorporate s (string_nat_nearest x) 1 = Ok s') /\
  ((exists s', bg_incorporate s x 1 = Ok s') -> string_nat_nearest x = x).
Proof.
  intros H Hx. rewrite (C23_accepts _ _ _ _ _ _ _ _ H). unfold string_nat_nearest.
  rewrite String.list_ascii_of_string_of_list_ascii.
  assert (forall cs, String.length (String.string_of_list_ascii cs) = length cs) as Hlen.
  { clear. induction cs; simpl; congruence. }
  split; [split|].
  - destruct Hx; [by left|right]. rewrite Hlen.
    rewrite <- (String.string_of_list_ascii_of_string x), Hlen in H0. etrans; [|exact H0].
    generalize (String.list_ascii_of_string x) as cs. clear. induction cs as [|c cs IH]; [done|]. simpl.
    destruct (is_digit c); simpl; lia.
  - apply Forall_forall. intros c Hc. apply elem_of_list_In, filter_In in Hc as [_ Hc].
    unfold is_digit in Hc. by apply bool_decide_eq_true_1 in Hc.
  - rewrite (C23_accepts _ _ _ _ _ _ _ _ H). intros [_ Hf].
    transitivity (String.string_of_list_ascii (String.list_ascii_of_string x)); [|apply String.string_of_list_ascii_of_string].
    f_equal. revert Hf. generalize (String.list_ascii_of_string x) as cs. clear.
    induction 1 as [|c cs Hc Hcs IH]; [done|]. simpl. unfold is_digit at 1.
    rewrite bool_decide_eq_true_2 by done. by rewrite IH.
Qed.

(** * C45: hyperparameter transitions *)
(** For every class, the point picked is one of the grid, each grid point having
    the normalised weight e^score / sum of e^score, and the data are kept. *)
Theorem C45_weights_are_posterior {H} (score : H -> R) (grid : list H) ws i h :
  sample_weights (score <$> grid) = Ok ws -> grid !! i = Some h ->
  exists w, ws !! i = Some w /\ w / Rsum ws = exp (score h) / Rsum ((fun h => exp (score h)) <$> grid).
Proof.
  intros Hw Hi. destruct (sample_weights_softmax _ ws i (score h) Hw) as (w & Hw1 & Hw2).
  { by rewrite list_lookup_fmap, Hi. }
  exists w. split; [done|]. rewrite Hw2. f_equal. f_equal. by rewrite <- list_fmap_compose.
Qed.
Theorem C45_beta_bernoulli lg b r : exists grid h r', bb_grid = Ok grid /\ length grid = 100%nat /\
  bb_transition lg b r = Ok (bb_set b h, r') /\ h ∈ grid /\
  bb_N (bb_set b h) = bb_N b /\ bb_s (bb_set b h) = bb_s b.
Proof.
  destruct bb_grid_Ok as (g & Hg & Hl). unfold bb_transition. rewrite Hg. cbn [obind].
  destruct (grid_transition_total (fun h => bb_score lg (bb_set b h)) g r) as (h & r' & E); [by intros ->|].
  rewrite E. exists g, h, r'. pose proof (grid_transition_Ok _ _ _ _ _ E). done.
Qed.
Theorem C45_dirichlet lg d r : exists a r',
  dc_transition lg d r = Ok (dc_set d a, r') /\ a ∈ alpha_grid /\
  dc_N (dc_set d a) = dc_N d /\ dc_counts (dc_set d a) = dc_counts d.
Proof.
  unfold dc_transition. destruct (grid_transition_total (fun a => dc_score lg (dc_set d a)) alpha_grid r) as (h & r' & E); [done|].
  rewrite E. exists h, r'. pose proof (grid_transition_Ok _ _ _ _ _ E). done.
Qed.
Theorem C45_normal lg n r : exists h r',
  nm_transition lg n r = Ok (nm_set n h, r') /\ h ∈ nm_grid /\ length nm_grid = 108%nat /\
  nm_N (nm_set n h) = nm_N n /\ nm_mean (nm_set n h) = nm_mean n /\ nm_var (nm_set n h) = nm_var n.
Proof.
  unfold nm_transition. destruct (grid_transition_total (fun a => nm_score lg (nm_set n a)) nm_grid r) as (h & r' & E); [done|].
  rewrite E. exists h, r'. pose proof (grid_transition_Ok _ _ _ _ _ E). by destruct h as [[[? ?] ?] ?].
Qed.
Theorem C45_zero_mean_normal lg n r : exists h r',
  zm_transition lg n r = Ok (zm_set n h, r') /\ h ∈ zm_grid /\ length zm_grid = 81%nat /\
  zm_N (zm_set n h) = zm_N n /\ zm_var (zm_set n h) = zm_var n.
Proof.
  unfold zm_transition. destruct (grid_transition_total (fun a => zm_score lg (zm_set n a)) zm_grid r) as (h & r' & E); [done|].
  rewrite E. exists h, r'. pose proof (grid_transition_Ok _ _ _ _ _ E). done.
Qed.
Theorem C45_bigram lg b r : exists a r',
  bg_transition lg b r = Ok (bg_set_alpha b a, r') /\ a ∈ alpha_grid /\ bg_N (bg_set_alpha b a) = bg_N b /\
  dc_counts <$> bg_dists (bg_set_alpha b a) = dc_counts <$> bg_dists b.
Proof.
  unfold bg_transition. destruct (grid_transition_total (fun a => bg_score lg (bg_set_alpha b a)) alpha_grid r) as (h & r' & E); [done|].
  rewrite E. exists h, r'. pose proof (grid_transition_Ok _ _ _ _ _ E). split_and!; try done.
  cbn [bg_set_alpha bg_dists]. by rewrite <- list_fmap_compose.
Qed.
