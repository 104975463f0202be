(** Specification vocabulary for seatings (partitions), independent of the model. *)
From stdpp Require Import gmap.
From Coq Require Import ZArith Reals.

(** Who sits where: customer -> table. *)
Notation seating := (gmap Z Z).

(** The customers seated at table [t]. *)
Definition customers_at (a : seating) (t : Z) : gset Z :=
  dom (filter (fun p : Z * Z => p.2 = t) a).

(** A user-level request, and what it means for the seating.  Seating someone
    already seated and removing someone not seated are illegal. *)
Inductive seat_op := Seat (item table : Z) | Unseat (item : Z).
Definition seat_step (a : seating) (o : seat_op) : option seating :=
  match o with
  | Seat i t => match a !! i with Some _ => None | None => Some (<[i := t]> a) end
  | Unseat i => match a !! i with Some _ => Some (delete i a) | None => None end
  end.
Fixpoint seat_run (a : seating) (ops : list seat_op) : option seating :=
  match ops with
  | [] => Some a
  | o :: ops' => match seat_step a o with Some a' => seat_run a' ops' | None => None end
  end.

(** Finite sums of reals indexed by the keys of a map. *)
Definition sum_map {K A} `{Countable K} (f : K -> A -> R) (m : gmap K A) : R :=
  foldr (fun p acc => (f p.1 p.2 + acc)%R) 0%R (map_to_list m).

(** The two facts about the log-gamma function that the code relies on. *)
Definition is_lgamma (lg : R -> R) : Prop :=
  lg 1%R = 0%R /\ forall x : R, (0 < x)%R -> lg (x + 1)%R = (lg x + ln x)%R.

(** Two seatings describe the same partition of the same customers when they
    put the same customers together, whatever the table numbers. *)
Definition same_partition (a1 a2 : gmap Z Z) : Prop :=
  dom a1 = dom a2 /\
  forall i j, i ∈ dom a1 -> j ∈ dom a1 -> (a1 !! i = a1 !! j <-> a2 !! i = a2 !! j).
