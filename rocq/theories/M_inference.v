(** Model of the inference loops of cxx/inference.cc:31-71 (timing and printing left out).
    [late i] says whether the time-out has passed when iteration [i] begins; [o i] are the
    orders in which iteration [i] visits hash containers. *)
From stdpp Require Import gmap strings.
From Coq Require Import ZArith Reals.
From Verif Require Import M_base M_math M_crp M_domain M_dist M_relation M_noisy M_irm M_hirm.

Section Inference.
Context {V : Type}.

(** inference.cc:31-41 [inference_irm], [n] iterations from iteration [i] on. *)
Fixpoint inference_irm (lg : R -> R) (o : nat -> orders) (late : nat -> bool) (i n : nat) (ir : irm V) (r : rng)
  : outcome (irm V * rng) :=
  match n with
  | 0 => Ok (ir, r)
  | S n' =>
    if late i then Ok (ir, r)
    else let* (ir, r) := irm_single_step lg (o i) ir true r in inference_irm lg o late (S i) n' ir r
  end.

(** inference.cc:43-71 [inference_hirm], [n] iterations from iteration [i] on. *)
Fixpoint inference_hirm (lg : R -> R) (o : nat -> orders) (late : nat -> bool) (i n : nat) (h : hirm V) (r : rng)
  : outcome (hirm V * rng) :=
  match n with
  | 0 => Ok (h, r)
  | S n' =>
    if late i then Ok (h, r)
    else let* (h, r) := hirm_iteration lg (o i) h r in inference_hirm lg o late (S i) n' h r
  end.
End Inference.
