(** Specification vocabulary for non-conjugate distributions. *)
From stdpp Require Import list.
From Coq Require Import ZArith Reals.
Local Open Scope R_scope.

(** The likelihood of the values [l], where a value [x] has probability [e^lp x]. *)
Fixpoint likelihood {T} (lp : T -> R) (l : list T) : R :=
  match l with [] => 1 | x :: l => exp (lp x) * likelihood lp l end.

(** The Metropolis rule: the probability of accepting a proposal of likelihood [new]
    when the current likelihood is [old]. *)
Definition acceptance (old new : R) : R := Rmin 1 (new / old).

(** The Poisson probability of [n] for the rate [mu]. *)
Definition poisson_pmf (mu : R) (n : nat) : R := exp (- mu) * mu ^ n / INR (fact n).

(** The density of the log-normal distribution. *)
Definition lognormal_pdf (mean stddev x : R) : R :=
  exp (- ((ln x - mean) / stddev * ((ln x - mean) / stddev)) / 2) / (x * stddev * sqrt (2 * PI)).

(** [bessel] is the modified Bessel function of the first kind, for whole orders and
    non-negative arguments. *)
Definition is_bessel (bessel : nat -> R -> R) : Prop :=
  forall k z, 0 <= z ->
    infinite_sum (fun m => (z / 2) ^ (2 * m + k) / (INR (fact m) * INR (fact (m + k)))) (bessel k z).
