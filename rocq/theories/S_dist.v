(** Specification vocabulary for distributions. *)
From stdpp Require Import list strings.
From Coq Require Import ZArith Reals Ascii.
From Verif Require Import M_base M_dist S_math.
Local Open Scope R_scope.

(** [dist_history D s l]: the object [s] was created and then went through some
    sequence of incorporate, unincorporate (of values currently in it) and
    parameter/hyperparameter transitions; [l] are the values in it now. *)
Inductive dist_history {V} (D : Dist V) : d_state D -> list V -> Prop :=
| hist_new sp r : dist_history D (d_new D sp r).1 []
| hist_inc s l v s' : dist_history D s l -> d_inc D s v = Ok s' -> dist_history D s' (v :: l)
| hist_uninc s l v l' s' : dist_history D s l -> l ≡ₚ v :: l' -> d_uninc D s v = Ok s' ->
    dist_history D s' l'
| hist_resample s l r s' r' : dist_history D s l -> d_resample D s r = Ok (s', r') ->
    dist_history D s' l.

(** How often [x] occurs in [l]. *)
Definition occurrences {V} `{EqDecision V} (x : V) (l : list V) : nat := length (filter (fun y => y = x) l).

(** Mean, variance and mean square of a list of reals; 0 for the empty list. *)
Definition mean_of (l : list R) : R :=
  match l with [] => 0 | _ => Rsum l / INR (length l) end.
Definition variance_of (l : list R) : R :=
  match l with [] => 0
  | _ => Rsum ((fun x => (x - mean_of l) * (x - mean_of l)) <$> l) / INR (length l) end.
Definition mean_square_of (l : list R) : R :=
  match l with [] => 0 | _ => Rsum ((fun x => x * x) <$> l) / INR (length l) end.

(** Densities of the gamma distribution (shape and scale, [lg] the logarithm of the
    gamma function) and of the normal distribution (mean and variance). *)
Definition gamma_pdf (lg : R -> R) (shape scale x : R) : R :=
  exp ((shape - 1) * ln x - x / scale - lg shape - shape * ln scale).
Definition normal_pdf (mean var x : R) : R :=
  exp (- ((x - mean) * (x - mean)) / (2 * var)) / sqrt (2 * PI * var).
