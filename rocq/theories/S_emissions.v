(** Vocabulary for weighted statistics and proposals of clean values. *)
From Coq Require Import ZArith Reals Ascii.
From stdpp Require Import list gmap.
From Verif Require Import M_base M_text S_math S_dist.

(** [weighted_history s0 inc ok s l]: starting from [s0], values were put in with weights
    that are [ok] and some taken out again, by a call with the opposite weight; [l] are the
    values in it now, with their weights. *)
Inductive weighted_history {S X} (s0 : S) (inc : S -> X -> R -> outcome S) (ok : R -> Prop) : S -> list (X * R) -> Prop :=
| wh_start : weighted_history s0 inc ok s0 []
| wh_in s l x w s' : weighted_history s0 inc ok s l -> ok w -> inc s x w = Ok s' -> weighted_history s0 inc ok s' ((x, w) :: l)
| wh_out s l x w l' s' : weighted_history s0 inc ok s l -> l ≡ₚ (x, w) :: l' -> inc s x (- w)%R = Ok s' ->
    weighted_history s0 inc ok s' l'.
(** The statistics are those of the values in it: they can be taken out again in any order. *)
Definition undoes {S X} (s0 : S) (inc : S -> X -> R -> outcome S) (ok : R -> Prop) : Prop :=
  (forall s l x w s', weighted_history s0 inc ok s l -> ok w -> inc s x w = Ok s' -> inc s' x (- w)%R = Ok s) /\
  (forall s l s' l', weighted_history s0 inc ok s l -> weighted_history s0 inc ok s' l' -> l ≡ₚ l' -> s = s').
Definition any_weight (w : R) : Prop := True.
Definition positive_weight (w : R) : Prop := (0 < w)%R.
Definition whole_weight (w : R) : Prop := exists z : Z, w = IZR z.

(** The weighted sum of [f] over the values, and the sum of the weights. *)
Definition wtotal {X} (f : X -> R) (l : list (X * R)) : R := Rsum (map (fun e => e.2 * f e.1)%R l).
Definition weight_of {X} (l : list (X * R)) : R := wtotal (fun _ => 1%R) l.

(** The weighted mean of [f]; 0 for no values. *)
Definition wavg {X} (f : X -> R) (l : list (X * R)) : R :=
  match l with [] => 0%R | _ => (wtotal f l / weight_of l)%R end.

(** [m] is a value of the list and none occurs more often. *)
Definition most_frequent {V} `{EqDecision V} (m : V) (l : list V) : Prop :=
  m ∈ l /\ forall x, (occurrences x l <= occurrences m l)%nat.

(** [t] is the sum of the values of [f] on the list, all of which exist. *)
Definition total_of {X} (f : X -> outcome R) (l : list X) (t : R) : Prop :=
  exists ts, Forall2 (fun x y => f x = Ok y) l ts /\ t = Rsum ts.

(** 1 for a condition that holds, 0 otherwise. *)
Definition ind (P : Prop) `{Decision P} : R := if decide P then 1%R else 0%R.
