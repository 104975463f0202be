(** Non-conjugate distributions: distributions/nonconjugate.hh and
    distributions/skellam.{hh,cc}.  Doubles are exact real numbers. *)
From stdpp Require Import gmap list.
From Coq Require Import ZArith Reals.
From Verif Require Import M_base M_math M_dist M_distributions.
Local Open Scope R_scope.

(** * NonconjugateDistribution *)

(** nonconjugate.hh:9-12 and base.hh:13: hyperparameters [H], latent values [L],
    the weight with which each value has been seen, and [N]. *)
Record nonconj (T H L : Type) `{Countable T} := NC {
  nc_hyper : H; nc_latents : L; nc_seen : gmap T R; nc_N : R }.
Global Arguments NC {T H L _ _} _ _ _ _.
Global Arguments nc_hyper {T H L _ _} _.
Global Arguments nc_latents {T H L _ _} _.
Global Arguments nc_seen {T H L _ _} _.
Global Arguments nc_N {T H L _ _} _.

(** nonconjugate.hh:56 [log(p) <= threshold]; the logarithm of 0 is minus infinity. *)
Definition log_le (p threshold : R) : bool :=
  if Req_EM_T p 0 then true else if Rle_dec (ln p) threshold then true else false.

Section nonconj.
Context {T H L : Type} `{Countable T}.
(** [lp]: the subclass's logp for given latent values; [prior]: its draw of latent values for
    given hyperparameters; [unif]: std::uniform_real_distribution(0, 1). *)
Context (lp : L -> T -> R) (prior : H -> rng -> L * rng) (unif : rng -> R * rng).
Implicit Types s : nonconj T H L.

(** nonconjugate.hh:32-35 [incorporate]; base.hh:20 [unincorporate] is [incorporate]
    with weight -1.  Simplification: the C++ map keeps a key whose weight has come
    back to 0, here it is removed.  The only reader of [seen] is [logp_score], where
    such a key contributes [logp * 0]. *)
Definition nc_incorporate s (x : T) (w : R) : nonconj T H L :=
  let c := default 0 (nc_seen s !! x) + w in
  NC (nc_hyper s) (nc_latents s)
     (if Req_EM_T c 0 then delete x (nc_seen s) else <[x := c]> (nc_seen s)) (nc_N s + w).
Definition nc_unincorporate s (x : T) : nonconj T H L := nc_incorporate s x (-1).

(** nonconjugate.hh:37-43 [logp_score] (real addition does not depend on the order of
    the map). *)
Definition nc_score s : R :=
  map_fold (fun x w score => score + lp (nc_latents s) x * w) 0 (nc_seen s).

(** The effect of [set_latents] (nonconjugate.hh:30). *)
Definition nc_set_latents s (l : L) : nonconj T H L := NC (nc_hyper s) l (nc_seen s) (nc_N s).

(** The subclass's [init_theta] (nonconjugate.hh:24). *)
Definition nc_init_theta s (r : rng) : nonconj T H L * rng :=
  let '(l, r') := prior (nc_hyper s) r in (nc_set_latents s l, r').

(** nonconjugate.hh:48-62 [transition_theta]. *)
Definition nc_transition_theta s (r : rng) : nonconj T H L * rng :=
  let old_latents := nc_latents s in
  let old_logp_score := nc_score s in
  let '(s1, r1) := nc_init_theta s r in
  let new_logp_score := nc_score s1 in
  let threshold := new_logp_score - old_logp_score in
  let '(p, r2) := unif r1 in
  if log_le p threshold then (s1, r2) else (nc_set_latents s1 old_latents, r2).

(** clean_relation.hh:513-516: the steps before the hyperparameters are resampled. *)
Fixpoint nc_theta_steps (n : nat) s (r : rng) : nonconj T H L * rng :=
  match n with
  | O => (s, r)
  | S n => let '(s1, r1) := nc_transition_theta s r in nc_theta_steps n s1 r1
  end.
End nonconj.

(** * Skellam *)

(** skellam.hh:11-13: mean1, stddev1, mean2, stddev2 and the rates mu1, mu2. *)
Record sk_hyper := SkHyper { sk_mean1 : R; sk_stddev1 : R; sk_mean2 : R; sk_stddev2 : R }.
Notation skellam := (nonconj Z sk_hyper (R * R)).

(** skellam.cc:7-11 [lognormal_logp]. *)
Definition lognormal_logp (x mean stddev : R) : R :=
  let y := (ln x - mean) / stddev in
  - (y * y) / 2 - ln (x * stddev) - 1 / 2 * ln (2 * PI).

(** skellam.hh:5-6. *)
Definition mean_grid : list R := [-10; 0; 10].
Definition stddev_grid : list R := [1 / 10; 1; 10].

(** skellam.cc:28-40: the points in the order they are tried. *)
Definition sk_grid : list sk_hyper :=
  mean_grid ≫= fun tmean1 =>
  stddev_grid ≫= fun tstddev1 =>
  mean_grid ≫= fun tmean2 =>
  (fun tstddev2 => SkHyper tmean1 tstddev1 tmean2 tstddev2) <$> stddev_grid.

Section skellam.
(** [bessel]: std::cyl_bessel_i (its order is a whole number here); [gauss mean
    stddev]: std::normal_distribution; [pois mu]: std::poisson_distribution<int>;
    [unif]: std::uniform_real_distribution(0, 1). *)
Context (bessel : nat -> R -> R) (gauss : R -> R -> rng -> R * rng)
  (pois : R -> rng -> Z * rng) (unif : rng -> R * rng).

(** skellam.hh:15-16 (constructor). *)
Definition sk_new : skellam := NC (SkHyper 0 1 0 1) (1, 1) ∅ 0.

(** skellam.cc:13-17 [logp]. *)
Definition sk_logp (mu : R * R) (x : Z) : R :=
  let '(mu1, mu2) := mu in
  - mu1 - mu2 + IZR x / 2 * ln (mu1 / mu2) + ln (bessel (Z.abs_nat x) (2 * sqrt (mu1 * mu2))).

(** skellam.cc:19-23 [sample] (the order in which a compiler evaluates the two draws is
    unspecified; the first one is taken first here).  The difference of two ints
    of [0, 2^31) cannot overflow. *)
Definition sk_sample (s : skellam) (r : rng) : Z * rng :=
  let '(mu1, mu2) := nc_latents s in
  let '(a, r1) := pois mu1 r in
  let '(b, r2) := pois mu2 r1 in
  ((a - b)%Z, r2).

(** skellam.cc:25-52 [transition_hyperparameters]. *)
Definition sk_set_hyper (s : skellam) (h : sk_hyper) : skellam :=
  NC h (nc_latents s) (nc_seen s) (nc_N s).
Definition sk_hyper_score (s : skellam) (h : sk_hyper) : R :=
  let '(mu1, mu2) := nc_latents s in
  lognormal_logp mu1 (sk_mean1 h) (sk_stddev1 h) + lognormal_logp mu2 (sk_mean2 h) (sk_stddev2 h).
Definition sk_transition (s : skellam) (r : rng) : outcome (skellam * rng) :=
  let* (h, r') := grid_transition (sk_hyper_score s) sk_grid r in
  Ok (sk_set_hyper s h, r').

(** skellam.cc:54-59 [init_theta]: the draw of the two rates. *)
Definition sk_prior (h : sk_hyper) (r : rng) : (R * R) * rng :=
  let '(a, r1) := gauss (sk_mean1 h) (sk_stddev1 h) r in
  let '(b, r2) := gauss (sk_mean2 h) (sk_stddev2 h) r1 in
  ((exp a, exp b), r2).

Definition sk_incorporate (s : skellam) (x : Z) (w : R) : skellam := nc_incorporate s x w.
Definition sk_unincorporate (s : skellam) (x : Z) : skellam := nc_unincorporate s x.
Definition sk_score (s : skellam) : R := nc_score sk_logp s.

(** nonconjugate.hh:48-62 for a Skellam; [set_latents] (skellam.cc:68-72) is called with the
    two values [store_latents] (skellam.cc:61-66) returned, so its assertion holds. *)
Definition sk_transition_theta (s : skellam) (r : rng) : skellam * rng :=
  nc_transition_theta sk_logp sk_prior unif s r.

(** get_distribution.cc:92-96: the rates of a new block are drawn from the prior. *)
Definition sk_start (r : rng) : skellam * rng := nc_init_theta sk_prior sk_new r.

(** A Skellam as the distribution of a block; [steps] is [num_theta_steps] of
    clean_relation.hh:512-519.  [nearest] is that of base.hh:57, the identity. *)
Definition sk_dist (steps : nat) : Dist Z := {|
  d_spec := unit;
  d_state := skellam;
  d_new := fun _ r => sk_start r;
  d_N_zero := fun s => R_is_zero (nc_N s);
  d_N_pos := fun s => R_is_pos (nc_N s);
  d_inc := fun s x => Ok (sk_incorporate s x 1);
  d_uninc := fun s x => Ok (sk_unincorporate s x);
  d_logp := fun s x => Ok (Some (sk_logp (nc_latents s) x));
  d_score := sk_score;
  d_sample := fun s r => let '(x, r') := sk_sample s r in Ok (x, s, r');
  d_resample := fun s r =>
    let '(s1, r1) := nc_theta_steps sk_logp sk_prior unif steps s r in sk_transition s1 r1;
  d_nearest := fun s x => Ok x;
|}.
End skellam.
