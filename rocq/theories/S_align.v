(** Alignments of two strings, their costs and the edit distance. *)
From Coq Require Import Reals Ascii String.
From stdpp Require Import base list gmap.
From Verif Require Import M_base M_text M_align.
Local Open Scope nat_scope.

(** The two strings that the pieces of an alignment spell. *)
Definition left_of (p : piece) : text := match p with Del c => [c] | Ins _ => [] | Sub a _ => [a] | Mat c => [c] end.
Definition right_of (p : piece) : text := match p with Del _ => [] | Ins c => [c] | Sub _ b => [b] | Mat c => [c] end.
Definition lefts (ps : list piece) : text := concat (map left_of ps).
Definition rights (ps : list piece) : text := concat (map right_of ps).
(** A substitution changes the character. *)
Definition proper (p : piece) : Prop := match p with Sub a b => a <> b | _ => True end.
Definition aligns (ps : list piece) (s1 s2 : text) : Prop := lefts ps = s1 /\ rights ps = s2 /\ Forall proper ps.

(** The cost of an alignment: the cost function applied to ever longer beginnings. *)
Definition cost_of (cost : cost_function) (ps : list piece) : R :=
  foldl (fun c n => cost (take (S n) ps) c) 0%R (seq 0 (length ps)).
(** Cost functions that add to the old cost something that depends on the new piece and on
    the parts of the two strings before it. *)
Definition additive (cost : cost_function) (w : text -> text -> piece -> R) : Prop :=
  forall ps p c, cost (ps ++ [p]) c = (c + w (lefts ps) (rights ps) p)%R.
Definition valid_pick (pick : list alignment -> nat) : Prop := forall heap, heap <> [] -> is_Some (heap !! pick heap).
Definition least_pick (pick : list alignment -> nat) : Prop :=
  forall heap, heap <> [] -> exists a, heap !! pick heap = Some a /\ forall b, b ∈ heap -> (a_cost a <= a_cost b)%R.

(** Number of pieces that are not matches. *)
Definition edits (ps : list piece) : nat := foldr (fun p n => match p with Mat _ => n | _ => S n end) 0 ps.
(** The edit distance of Levenshtein. *)
Fixpoint levenshtein (s1 : text) : text -> nat :=
  fix lev2 (s2 : text) : nat :=
    match s1, s2 with
    | [], _ => length s2
    | _, [] => length s1
    | a :: s1', b :: s2' =>
      Nat.min (S (levenshtein s1' s2)) (Nat.min (S (lev2 s2')) ((if decide (a = b) then 0 else 1) + levenshtein s1' s2'))
    end.
