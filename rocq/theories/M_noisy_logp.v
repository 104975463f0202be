(** Model of the scoring calls of NoisyRelation (cxx/noisy_relation.hh:123-140). *)
From stdpp Require Import gmap strings.
From Coq Require Import ZArith Reals.
From Verif Require Import M_base M_crp M_domain M_dist M_relation M_noisy M_rel_logp.

Section NoisyLogp.
Context {V : Type}.
Implicit Types n : noisy V.

(** noisy_relation.hh:123-126 [logp_gibbs_approx]: the emission relation answers. *)
Definition noisy_logp_gibbs_approx (W : world) n (ord : set_order) (d0 : string) (e0 t0 : Z) (r : rng)
  : outcome (option R * noisy V * rng) :=
  let* (lp, rel, r) := logp_gibbs_approx (em_dist (n_em n)) W (n_rel n) ord d0 e0 t0 r in
  Ok (lp, n_set n (n_data n) (n_b2n n) rel, r).

(** noisy_relation.hh:134-137 [logp]: the pair of the value of the base relation and
    the value is scored by the emission relation. *)
Definition noisy_logp (W : world) n (b : base_view V) (items : items_t) (v : V) (r : rng) : outcome (option R * rng) :=
  let* bv := get_base_value b items in
  rel_logp (em_dist (n_em n)) W (n_rel n) items (bv, v) r.

(** noisy_relation.hh:139 [logp_score]. *)
Definition noisy_logp_score n : R := rel_logp_score (em_dist (n_em n)) (n_rel n).
End NoisyLogp.
