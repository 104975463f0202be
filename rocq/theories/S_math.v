(** Specification vocabulary for the numeric helpers. *)
From stdpp Require Import list.
From Coq Require Import Reals.

(** [exp] of a log-weight, with [None] = minus infinity. *)
Definition eexp (w : option R) : R := match w with Some x => exp x | None => 0%R end.
Definition Rsum (l : list R) : R := foldr Rplus 0%R l.

(** The textbook Cartesian product in lexicographic order. *)
Fixpoint cartesian {A} (lists : list (list A)) : list (list A) :=
  match lists with
  | [] => [[]]
  | l :: ls => l ≫= (fun e => (fun r => e :: r) <$> cartesian ls)
  end.
