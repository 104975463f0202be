(** The interface every block (cluster) of a relation is used through:
    cxx/distributions/base.hh [Distribution<T>], and its construction through
    [get_prior] (distributions/get_distribution.cc) / [get_emission]. *)
From Coq Require Import ZArith Reals.
From Verif Require Import M_base.

(** distributions/base.hh:5-62.  The public field [N] (a double) is only read
    through the two comparisons relations make, [N == 0] and [N > 0]; relations
    incorporate with weight 1 and unincorporate with weight -1.  Values of logp are [option R], [None] being minus infinity. *)
Record Dist (V : Type) := MkDist {
  d_spec : Type;                              (* DistributionSpec / EmissionSpec *)
  d_state : Type;                             (* the distribution object *)
  d_new : d_spec -> rng -> d_state * rng;     (* get_prior / get_emission *)
  d_N_zero : d_state -> bool;                 (* base.hh:13, N == 0 *)
  d_N_pos : d_state -> bool;                  (* base.hh:13, N > 0 *)
  d_inc : d_state -> V -> outcome d_state;    (* base.hh:16 incorporate(x) *)
  d_uninc : d_state -> V -> outcome d_state;  (* base.hh:20 unincorporate(x) *)
  d_logp : d_state -> V -> outcome (option R);  (* base.hh:31 logp(x) *)
  d_score : d_state -> R;                     (* base.hh:37 logp_score() *)
  d_sample : d_state -> rng -> outcome (V * d_state * rng);  (* base.hh:40 sample, not const *)
  (* base.hh:45,53 transition_hyperparameters and transition_theta *)
  d_resample : d_state -> rng -> outcome (d_state * rng);
  d_nearest : d_state -> V -> outcome V;      (* base.hh:57 nearest *)
}.
Global Arguments d_spec {V} d.
Global Arguments d_state {V} d.
Global Arguments d_new {V} d _ _.
Global Arguments d_N_zero {V} d _.
Global Arguments d_N_pos {V} d _.
Global Arguments d_inc {V} d _ _.
Global Arguments d_uninc {V} d _ _.
Global Arguments d_logp {V} d _ _.
Global Arguments d_score {V} d _.
Global Arguments d_sample {V} d _ _.
Global Arguments d_resample {V} d _ _.
Global Arguments d_nearest {V} d _ _.
