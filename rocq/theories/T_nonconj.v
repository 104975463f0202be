(** Property C43: the Metropolis step of non-conjugate distributions, and Skellam. *)
From stdpp Require Import gmap list.
From Coq Require Import ZArith Reals Lra Lia.
From Coquelicot Require Coquelicot.
From Verif Require Import M_base M_math M_dist M_distributions M_nonconj S_math S_dist S_relation S_nonconj
  P_base P_math P_dist P_dirichlet P_nonconj T_dist.
Local Open Scope R_scope.

Section c43.
Context (bessel : nat -> R -> R) (gauss : R -> R -> rng -> R * rng)
  (pois : R -> rng -> Z * rng) (unif : rng -> R * rng) (steps : nat).
Notation history := (dist_history (sk_dist bessel gauss pois unif steps)).
Notation theta_step := (sk_transition_theta bessel gauss unif).

(** After every history of observations, removals and transitions the object holds the
    observed values, and its rates and standard deviations are positive. *)
Theorem C43_state s l : history s l ->
  (forall x, default 0 (nc_seen s !! x) = INR (occurrences x l)) /\ nc_N s = INR (length l) /\
  0 < (nc_latents s).1 /\ 0 < (nc_latents s).2 /\
  0 < sk_stddev1 (nc_hyper s) /\ 0 < sk_stddev2 (nc_hyper s).
Proof.
  intros Hh. destruct (history_lawful _ (sk_lawful bessel gauss pois unif steps) _ _ Hh) as [_ [h ->]].
  cbn [law_of sk_lawful]. destruct h as [[h t] (H1 & H2 & H3 & H4)]. split_and!; try done.
  intros x. apply seen_of_default.
Qed.

(** The score is the log-likelihood of those values. *)
Theorem C43_score s l : history s l ->
  sk_score bessel s = Rsum (sk_logp bessel (nc_latents s) <$> l) /\
  exp (sk_score bessel s) = likelihood (sk_logp bessel (nc_latents s)) l.
Proof.
  intros Hh. destruct (history_lawful _ (sk_lawful bessel gauss pois unif steps) _ _ Hh) as [_ [h ->]].
  cbn [law_of sk_lawful]. unfold sk_score, sk_of. rewrite nc_score_of. split; [done|]. by rewrite likelihood_exp.
Qed.

Theorem C43_logp_is_score_increase s x :
  sk_score bessel (sk_incorporate s x 1) = sk_score bessel s + sk_logp bessel (nc_latents s) x.
Proof. unfold sk_score, sk_incorporate. rewrite nc_score_incorporate. lra. Qed.

Theorem C43_order_independent s l s' l' : history s l -> history s' l' -> l ≡ₚ l' ->
  nc_seen s = nc_seen s' /\ nc_N s = nc_N s'.
Proof.
  intros Hh Hh' HP. destruct (history_lawful _ (sk_lawful bessel gauss pois unif steps) _ _ Hh) as [_ [h ->]].
  destruct (history_lawful _ (sk_lawful bessel gauss pois unif steps) _ _ Hh') as [_ [h' ->]].
  cbn [law_of sk_lawful sk_of nc_of nc_seen nc_N]. by rewrite (seen_of_perm _ _ HP), HP.
Qed.

Theorem C43_unincorporate_incorporate s l x : history s l ->
  sk_unincorporate (sk_incorporate s x 1) x = s.
Proof.
  intros Hh. destruct (history_lawful _ (sk_lawful bessel gauss pois unif steps) _ _ Hh) as [_ [h ->]].
  cbn [law_of sk_lawful]. unfold sk_unincorporate, sk_incorporate, sk_of. by rewrite nc_inc_of, nc_uninc_of.
Qed.

Lemma theta_from_prior s l r t p r1 r2 : history s l ->
  sk_prior gauss (nc_hyper s) r = (t, r1) -> unif r1 = (p, r2) -> 0 <= p ->
  exists s', theta_step s r = (s', r2) /\
    nc_hyper s' = nc_hyper s /\ nc_seen s' = nc_seen s /\ nc_N s' = nc_N s /\
    (p * likelihood (sk_logp bessel (nc_latents s)) l <= likelihood (sk_logp bessel t) l ->
       nc_latents s' = t) /\
    (likelihood (sk_logp bessel t) l < p * likelihood (sk_logp bessel (nc_latents s)) l ->
       s' = s).
Proof.
  intros Hh Hp Hu Hp0. destruct (history_lawful _ (sk_lawful bessel gauss pois unif steps) _ _ Hh) as [_ [h ->]].
  cbn [law_of sk_lawful] in *. unfold sk_of, sk_transition_theta in *. cbn [nc_of nc_hyper nc_latents] in *.
  rewrite (P_nonconj.theta_step _ _ _ _ _ _ _ _ _ _ _ Hp Hu Hp0). eexists. split; [done|].
  cbn [nc_of nc_hyper nc_seen nc_N nc_latents]. split_and!; try done; intros Hle; destruct (Rle_dec _ _) as [Hd|Hd]; done || lra.
Qed.

(** The Metropolis step: two normal draws with the means and
    deviations of the hyperparameters give the logarithms of the new rates, then a number [p] is drawn; the new
    rates are kept exactly when [p] times the old likelihood is at most the new one,
    and otherwise the old ones are.  Nothing else changes. *)
Theorem C43_theta s l r a b p r0 r1 r2 : history s l ->
  gauss (sk_mean1 (nc_hyper s)) (sk_stddev1 (nc_hyper s)) r = (a, r0) -> gauss (sk_mean2 (nc_hyper s)) (sk_stddev2 (nc_hyper s)) r0 = (b, r1) ->
  unif r1 = (p, r2) -> 0 <= p ->
  exists s', theta_step s r = (s', r2) /\
    nc_hyper s' = nc_hyper s /\ nc_seen s' = nc_seen s /\ nc_N s' = nc_N s /\
    (p * likelihood (sk_logp bessel (nc_latents s)) l <= likelihood (sk_logp bessel (exp a, exp b)) l ->
       nc_latents s' = (exp a, exp b)) /\
    (likelihood (sk_logp bessel (exp a, exp b)) l < p * likelihood (sk_logp bessel (nc_latents s)) l ->
       s' = s).
Proof. intros Hh Ha Hb. apply theta_from_prior; [done|]. unfold sk_prior. by rewrite Ha, Hb. Qed.
(** The rates of a new block are such a draw with the initial hyperparameters. *)
Theorem C43_start r a b r0 r1 : gauss 0 1 r = (a, r0) -> gauss 0 1 r0 = (b, r1) ->
  exists s, sk_start gauss r = (s, r1) /\ nc_latents s = (exp a, exp b) /\ nc_N s = 0 /\ forall x, nc_seen s !! x = None.
Proof. intros Ha Hb. unfold sk_start, nc_init_theta, sk_new, sk_prior. cbn. rewrite Ha, Hb. eexists. split; [reflexivity|]. split; [done|]. split; [done|]. intros x. apply lookup_empty. Qed.

(** A proposal that is at least as likely is always kept. *)
Theorem C43_accepts_better s l r t p r1 r2 : history s l ->
  sk_prior gauss (nc_hyper s) r = (t, r1) -> unif r1 = (p, r2) -> 0 <= p < 1 ->
  likelihood (sk_logp bessel (nc_latents s)) l <= likelihood (sk_logp bessel t) l ->
  exists s', theta_step s r = (s', r2) /\ nc_latents s' = t.
Proof.
  intros Hh Hp Hu Hp0 Hle. destruct (theta_from_prior _ _ _ _ _ _ _ Hh Hp Hu) as (s' & E & _ & _ & _ & Ha & _); [lra|].
  exists s'. split; [done|]. apply Ha. pose proof (likelihood_pos (sk_logp bessel (nc_latents s)) l).
  eapply Rle_trans; [|exact Hle]. rewrite <- (Rmult_1_l (likelihood _ l)) at 2. apply Rmult_le_compat_r; lra.
Qed.

(** The numbers [p] below 1 that lead to acceptance are those up to the Metropolis
    probability min(1, new/old). *)
Theorem C43_acceptance s l r t p r1 r2 : history s l ->
  sk_prior gauss (nc_hyper s) r = (t, r1) -> unif r1 = (p, r2) -> 0 <= p < 1 -> t <> nc_latents s ->
  exists s', theta_step s r = (s', r2) /\
   (nc_latents s' = t <->
    p <= acceptance (likelihood (sk_logp bessel (nc_latents s)) l) (likelihood (sk_logp bessel t) l)).
Proof.
  intros Hh Hp Hu Hp0 Hne. destruct (theta_from_prior _ _ _ _ _ _ _ Hh Hp Hu) as (s' & E & _ & _ & _ & Ha & Hr); [lra|].
  exists s'. split; [done|]. unfold acceptance.
  pose proof (likelihood_pos (sk_logp bessel (nc_latents s)) l) as Ho. set (old := likelihood _ l) in *.
  set (new := likelihood (sk_logp bessel t) l) in *.
  assert (p * old <= new <-> p <= new / old) as Hiff.
  { split; intros Hle.
    - apply (Rmult_le_reg_r old); [done|]. replace (new / old * old) with new by (field; lra). done.
    - apply (Rmult_le_compat_r old) in Hle; [|lra]. replace (new / old * old) with new in Hle by (field; lra). done. }
  destruct (Rle_lt_dec (p * old) new) as [Hle|Hlt].
  - split; [|by intros; apply Ha]. intros _. apply Rmin_glb; [lra|]. by apply Hiff.
  - rewrite (Hr Hlt). split; [by intros <-|]. intros Hm. exfalso.
    assert (p <= new / old) as Hx by (eapply Rle_trans; [exact Hm|apply Rmin_r]). apply Hiff in Hx. lra.
Qed.
End c43.
Print Assumptions C43_state.
Print Assumptions C43_score.
Print Assumptions C43_logp_is_score_increase.
Print Assumptions C43_order_independent.
Print Assumptions C43_unincorporate_incorporate.
Print Assumptions C43_theta.
Print Assumptions C43_accepts_better.
Print Assumptions C43_acceptance.

(** Detailed balance: with proposals drawn from a prior of density [prior], the step keeps
    the posterior, whose density is proportional to prior times likelihood. *)
Theorem C43_detailed_balance {T L} (prior : L -> R) (lp : L -> T -> R) (l : list T) (t t' : L) :
  (prior t * likelihood (lp t) l) * (prior t' * acceptance (likelihood (lp t) l) (likelihood (lp t') l)) =
  (prior t' * likelihood (lp t') l) * (prior t * acceptance (likelihood (lp t') l) (likelihood (lp t) l)).
Proof.
  assert (forall a b, 0 < a -> 0 < b -> a * acceptance a b = b * acceptance b a) as Hb.
  { intros a b Ha Hb. unfold acceptance, Rmin.
    assert (a <= b <-> 1 <= b / a) as H1.
    { split; intros Hle.
      - apply (Rmult_le_reg_r a); [done|]. replace (b / a * a) with b by (field; lra). lra.
      - apply (Rmult_le_compat_r a) in Hle; [|lra]. replace (b / a * a) with b in Hle by (field; lra). lra. }
    assert (b <= a <-> 1 <= a / b) as H2.
    { split; intros Hle.
      - apply (Rmult_le_reg_r b); [done|]. replace (a / b * b) with a by (field; lra). lra.
      - apply (Rmult_le_compat_r b) in Hle; [|lra]. replace (a / b * b) with a in Hle by (field; lra). lra. }
    destruct (Rle_dec 1 (b / a)) as [Hd|Hd], (Rle_dec 1 (a / b)) as [He|He].
    - apply H1 in Hd. apply H2 in He. lra.
    - field. lra.
    - field. lra.
    - exfalso. destruct (Rle_or_lt a b); [tauto|]. apply He, H2. lra. }
  assert (forall (f : T -> R), 0 < likelihood f l) as Hpos.
  { intros f. induction l as [|x l' IH]; simpl; [lra|]. apply Rmult_lt_0_compat; [apply exp_pos|done]. }
  rewrite !(Rmult_assoc (prior _)), <- !(Rmult_assoc (likelihood _ l)).
  rewrite (Rmult_comm (likelihood (lp t) l)), (Rmult_comm (likelihood (lp t') l)).
  rewrite !(Rmult_assoc (prior _)). rewrite (Hb _ _ (Hpos (lp t)) (Hpos (lp t'))). lra.
Qed.
Print Assumptions C43_detailed_balance.

(** The probabilities [logp] gives are those of the values [sample] draws: a Poisson value of
    the first rate minus one of the second. *)
Theorem C43_sample_matches_logp bessel mu1 mu2 x : is_bessel bessel -> 0 < mu1 -> 0 < mu2 ->
  infinite_sum (fun m => poisson_pmf mu1 (m + Z.to_nat x) * poisson_pmf mu2 (m + Z.to_nat (- x)))
    (exp (sk_logp bessel (mu1, mu2) x)).
Proof.
  intros Hb H1 H2. set (a := ln mu1). set (b := ln mu2).
  set (p := Z.to_nat x). set (q := Z.to_nat (- x)).
  assert (Z.abs_nat x = (p + q)%nat) as Habs by lia.
  assert (IZR x = INR p - INR q) as Hx. { rewrite !INR_IZR_INZ, <- minus_IZR. f_equal. lia. }
  assert ((p = 0 \/ q = 0)%nat) as Hz by lia.
  assert (forall mu n, 0 < mu -> mu ^ n = exp (INR n * ln mu)) as Hpow.
  { intros mu n Hmu. induction n as [|n IH]; [simpl; by rewrite Rmult_0_l, exp_0|].
    rewrite S_INR. simpl. rewrite IH, <- (exp_ln mu) at 1 by done. rewrite <- exp_plus. f_equal. lra. }
  pose proof (sqrt_lt_R0 (mu1 * mu2) (Rmult_lt_0_compat _ _ H1 H2)) as Hs.
  pose proof (Hb (p + q)%nat (2 * sqrt (mu1 * mu2)) ltac:(lra)) as Hsum.
  assert (0 < bessel (p + q)%nat (2 * sqrt (mu1 * mu2))) as Hpos.
  { apply Rlt_le_trans with (sum_f_R0 (fun m => (2 * sqrt (mu1 * mu2) / 2) ^ (2 * m + (p + q)) / (INR (fact m) * INR (fact (m + (p + q))))) 0).
    - cbn [sum_f_R0]. apply Rdiv_lt_0_compat; [apply pow_lt; lra|]. apply Rmult_lt_0_compat; apply lt_0_INR, lt_O_fact.
    - apply sum_incr; [exact Hsum|]. intros n. left. apply Rdiv_lt_0_compat; [apply pow_lt; lra|]. apply Rmult_lt_0_compat; apply lt_0_INR, lt_O_fact. }
  unfold sk_logp. rewrite Habs, exp_plus, exp_ln by done.
  eapply infinite_sum_ext; [|apply infinite_sum_scal, Hsum]. intros m. cbv beta.
  unfold poisson_pmf. rewrite !Hpow by (done || lra).
  replace (2 * sqrt (mu1 * mu2) / 2) with (sqrt (mu1 * mu2)) by lra.
  assert (ln (sqrt (mu1 * mu2)) = (a + b) / 2) as Hln.
  { assert (ln (sqrt (mu1 * mu2)) + ln (sqrt (mu1 * mu2)) = a + b); [|lra].
    rewrite <- ln_mult by done. rewrite sqrt_sqrt by (left; by apply Rmult_lt_0_compat). by apply ln_mult. }
  rewrite Hln. fold a b. assert (ln (mu1 / mu2) = a - b) as Hld.
  { unfold Rdiv. rewrite ln_mult; [|done|by apply Rinv_0_lt_compat]. rewrite ln_Rinv by done. unfold a, b. lra. }
  rewrite Hld, Hx.
  assert (INR (fact (m + p)) * INR (fact (m + q)) = INR (fact m) * INR (fact (m + (p + q)))) as Hf.
  { destruct Hz as [-> | ->]; rewrite ?Nat.add_0_r, ?Nat.add_0_l; lra. }
  pose proof (lt_0_INR _ (lt_O_fact (m + p))). pose proof (lt_0_INR _ (lt_O_fact (m + q))).
  pose proof (lt_0_INR _ (lt_O_fact m)). pose proof (lt_0_INR _ (lt_O_fact (m + (p + q)))).
  transitivity (exp (- mu1) * exp (- mu2) * (exp (INR (m + p) * a) * exp (INR (m + q) * b)) / (INR (fact (m + p)) * INR (fact (m + q)))).
  2: { field. lra. }
  rewrite Hf, <- !exp_plus. unfold Rdiv. rewrite <- Rmult_assoc, <- exp_plus. f_equal. f_equal.
  rewrite !plus_INR, mult_INR. simpl (INR 2). lra.
Qed.
Print Assumptions C43_sample_matches_logp.

Theorem C43_sample pois s r a r1 b r2 :
  pois (nc_latents s).1 r = (a, r1) -> pois (nc_latents s).2 r1 = (b, r2) ->
  sk_sample pois s r = ((a - b)%Z, r2).
Proof. intros E1 E2. unfold sk_sample. destruct (nc_latents s) as [mu1 mu2]. simpl in *. by rewrite E1, E2. Qed.

(** The hyperparameters are resampled from the grid, each point with the probability of the
    current rates under the log-normal prior it stands for; the rates and values are kept. *)
Lemma lognormal_exp x mean sd : 0 < x -> 0 < sd -> exp (lognormal_logp x mean sd) = lognormal_pdf mean sd x.
Proof.
  intros Hx Hs. unfold lognormal_logp, lognormal_pdf, Rminus. rewrite !exp_plus, !exp_Ropp.
  rewrite exp_ln by (by apply Rmult_lt_0_compat). pose proof PI_RGT_0 as Hpi.
  assert (exp (1 / 2 * ln (2 * PI)) = sqrt (2 * PI)) as ->.
  { rewrite <- Rpower_sqrt by lra. unfold Rpower. f_equal. lra. }
  pose proof (sqrt_lt_R0 (2 * PI) ltac:(lra)). unfold Rdiv. field. split_and!; lra.
Qed.
Theorem C43_hyperparameters s r : 0 < (nc_latents s).1 -> 0 < (nc_latents s).2 ->
  length sk_grid = 81%nat /\
  exists h r', sk_transition s r = Ok (sk_set_hyper s h, r') /\ h ∈ sk_grid /\
    nc_latents (sk_set_hyper s h) = nc_latents s /\ nc_seen (sk_set_hyper s h) = nc_seen s /\
    nc_N (sk_set_hyper s h) = nc_N s /\
    forall h, h ∈ sk_grid -> exp (sk_hyper_score s h) =
      lognormal_pdf (sk_mean1 h) (sk_stddev1 h) (nc_latents s).1 *
      lognormal_pdf (sk_mean2 h) (sk_stddev2 h) (nc_latents s).2.
Proof.
  intros H1 H2. split; [done|]. unfold sk_transition.
  destruct (grid_transition_total (sk_hyper_score s) sk_grid r) as (h & r' & E); [done|].
  rewrite E. exists h, r'. pose proof (grid_transition_Ok _ _ _ _ _ E). split_and!; try done.
  intros g (_ & Hg1 & _ & Hg2)%sk_grid_elem. apply stddev_grid_pos in Hg1, Hg2.
  unfold sk_hyper_score. destruct (nc_latents s) as [mu1 mu2]. simpl in *. by rewrite exp_plus, !lognormal_exp.
Qed.
Print Assumptions C43_hyperparameters.

(** * The hypotheses are met *)
(** Modified Bessel functions exist. *)
Example C43_bessel : exists bessel, is_bessel bessel.
Proof.
  exists (fun k z => Coquelicot.Series.Series (fun m => (z / 2) ^ (2 * m + k) / (INR (fact m) * INR (fact (m + k))))).
  intros k z Hz. apply Coquelicot.Series.is_series_Reals, Coquelicot.Series.Series_correct.
  assert (0 <= z / 2) as Hw by lra. set (w := z / 2) in *.
  apply (@Coquelicot.Series.ex_series_le Coquelicot.Hierarchy.R_AbsRing Coquelicot.Hierarchy.R_CompleteNormedModule _ (fun m => w ^ k * (/ INR (fact m) * (w * w) ^ m))).
  - intros m. unfold Coquelicot.Hierarchy.norm. simpl. unfold Coquelicot.Hierarchy.abs. simpl.
    rewrite Rabs_pos_eq.
    + assert (w ^ (2 * m + k) = w ^ k * (w * w) ^ m) as Ew.
      { rewrite pow_add, pow_mult. simpl. rewrite Rmult_1_r. lra. }
      change (w ^ (m + (m + 0) + k)) with (w ^ (2 * m + k)). rewrite Ew.
      pose proof (lt_0_INR _ (lt_O_fact m)) as Hm.
      assert (1 <= INR (fact (m + k))) as Hmk. { pose proof (lt_O_fact (m + k)) as Hf. change 1 with (INR 1). apply le_INR. lia. }
      unfold Rdiv. rewrite Rinv_mult_distr by lra. rewrite (Rmult_comm (/ INR (fact m)) (/ INR _)), Rmult_assoc.
      apply Rmult_le_compat_l; [by apply pow_le|].
      rewrite (Rmult_comm (/ INR (fact m))). apply Rmult_le_compat_l; [apply pow_le; by apply Rmult_le_pos|].
      rewrite <- (Rmult_1_l (/ INR (fact m))) at 2. apply Rmult_le_compat_r; [left; by apply Rinv_0_lt_compat|].
      rewrite <- Rinv_1. apply Rinv_le_contravar; lra.
    + apply Rmult_le_pos; [by apply pow_le|]. left. apply Rinv_0_lt_compat. apply Rmult_lt_0_compat; apply lt_0_INR, lt_O_fact.
  - apply (@Coquelicot.Series.ex_series_scal Coquelicot.Hierarchy.R_AbsRing Coquelicot.Hierarchy.R_NormedModule (w ^ k) (fun m => / INR (fact m) * (w * w) ^ m)).
    exists (exp (w * w)).
    apply Coquelicot.Series.is_series_Reals. unfold exp. destruct (exist_exp (w * w)) as [e He]. exact He.
Qed.
Print Assumptions C43_bessel.

(** A draw that returns the next entry of the stream. *)
Definition next_draw (r : rng) : R * rng := match r with [] => (0, []) | n :: r => (INR n, r) end.
Definition half_draw (r : rng) : R * rng := (1 / 2, r).
Definition flat_bessel : nat -> R -> R := fun _ _ => 1.
Definition C43_object : skellam := sk_incorporate (sk_start (fun _ _ => next_draw) []).1 0 1.
Example C43_history steps :
  dist_history (sk_dist flat_bessel (fun _ _ => next_draw) (fun _ r => (0%Z, r)) half_draw steps) C43_object [0%Z] /\
  nc_latents C43_object = (exp 0, exp 0).
Proof.
  split; [|done]. apply (hist_inc (sk_dist flat_bessel (fun _ _ => next_draw) (fun _ r => (0%Z, r)) half_draw steps) (sk_start (fun _ _ => next_draw) []).1 [] 0%Z); [|done].
  exact (hist_new (sk_dist flat_bessel (fun _ _ => next_draw) (fun _ r => (0%Z, r)) half_draw steps) tt []).
Qed.
(** A worse proposal is turned down, an equal one is kept. *)
Example C43_turned_down : sk_transition_theta flat_bessel (fun _ _ => next_draw) half_draw C43_object [1; 1; 7]%nat = (C43_object, [7]%nat).
Proof.
  destruct (C43_history 0) as [Hh Hl].
  destruct (theta_from_prior flat_bessel (fun _ _ => next_draw) (fun _ r => (0%Z, r)) half_draw 0 C43_object [0%Z] [1; 1; 7]%nat (exp 1, exp 1) (1 / 2) [7]%nat [7]%nat Hh)
    as (s' & E & _ & _ & _ & _ & Hr); [done|done|lra|]. rewrite E. f_equal. apply Hr. rewrite Hl.
  unfold likelihood, sk_logp, flat_bessel. rewrite !Rmult_1_r, ln_1, exp_0. replace (0 / 2 * ln (1 / 1)) with 0 by lra. replace (0 / 2 * ln (exp 1 / exp 1)) with 0 by lra.
  rewrite !Rplus_0_r. pose proof (exp_ineq1 1 ltac:(lra)) as He. 
  assert (exp (- exp 1 - exp 1) < exp (-2 + -2)) as Hlt by (apply exp_increasing; lra).
  rewrite exp_plus in Hlt. replace (- (1) - 1) with (-2) by lra.
  assert (exp (-2) <= 1 / 2) as Hh2.
  { replace (-2) with (- (2)) by lra. rewrite exp_Ropp. pose proof (exp_ineq1 2 ltac:(lra)).
    apply (Rmult_le_reg_r (exp 2)); [apply exp_pos|]. rewrite Rinv_l by (pose proof (exp_pos 2); lra). lra. }
  pose proof (exp_pos (-2)). eapply Rlt_le_trans; [exact Hlt|]. apply Rmult_le_compat_r; lra.
Qed.
Example C43_kept : exists s', sk_transition_theta flat_bessel (fun _ _ => next_draw) half_draw C43_object [0; 0; 7]%nat = (s', [7]%nat) /\
  nc_latents s' = (exp 0, exp 0).
Proof.
  destruct (C43_history 0) as [Hh Hl].
  apply (C43_accepts_better flat_bessel (fun _ _ => next_draw) (fun _ r => (0%Z, r)) half_draw 0 C43_object [0%Z] [0; 0; 7]%nat (exp 0, exp 0) (1 / 2) [7]%nat [7]%nat Hh); [done|done|lra|].
  rewrite Hl. lra.
Qed.
