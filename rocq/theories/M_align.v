(** String alignments: emissions/string_alignment.{hh,cc}; StringCat::nearest. *)
From Coq Require Import Reals Ascii String.
From stdpp Require Import base list gmap.
From Verif Require Import M_base M_text.
Local Open Scope nat_scope.

(** string_alignment.hh:8-29 *)
Inductive piece := Del (c : ascii) | Ins (c : ascii) | Sub (a b : ascii) | Mat (c : ascii).
(** string_alignment.hh:31-39 [StrAlignment].  The heap holds negated costs and pops its
    greatest element; here costs are not negated and the heap pops a least element.  Costs
    are real numbers instead of doubles. *)
Record alignment := Align { a_cost : R; a_pos1 : nat; a_pos2 : nat; a_pieces : list piece }.
(** string_alignment.hh:42-45 [CostFunction].  The cost functions of the code look only at
    the pieces of the alignment. *)
Definition cost_function : Type := list piece -> R -> R.

(** string_alignment.cc:44-51 *)
Definition push_deletion (cost : cost_function) (s1 : text) (a : alignment) : list alignment :=
  match s1 !! a_pos1 a with
  | Some c => let ps := a_pieces a ++ [Del c] in [Align (cost ps (a_cost a)) (S (a_pos1 a)) (a_pos2 a) ps]
  | None => []
  end.
(** string_alignment.cc:53-60 *)
Definition push_insertion (cost : cost_function) (s2 : text) (a : alignment) : list alignment :=
  match s2 !! a_pos2 a with
  | Some c => let ps := a_pieces a ++ [Ins c] in [Align (cost ps (a_cost a)) (a_pos1 a) (S (a_pos2 a)) ps]
  | None => []
  end.
(** string_alignment.cc:62-82 *)
Definition push_pair (cost : cost_function) (s1 s2 : text) (a : alignment) : list alignment :=
  match s1 !! a_pos1 a, s2 !! a_pos2 a with
  | Some c1, Some c2 =>
    let ps := a_pieces a ++ [if ceqb c1 c2 then Mat c1 else Sub c1 c2] in
    [Align (cost ps (a_cost a)) (S (a_pos1 a)) (S (a_pos2 a)) ps]
  | _, _ => []
  end.
(** The three continuations, in the order in which they are pushed. *)
Definition continuations (cost : cost_function) (s1 s2 : text) (a : alignment) : list alignment :=
  push_deletion cost s1 a ++ push_insertion cost s2 a ++ push_pair cost s1 s2 a.

(** string_alignment.cc:5-85 [topk_alignments].  The heap is a list; [pick] gives the
    index of the element that [pop_heap] takes out: one of least cost.  Which of several is
    left open (the code goes on to compare positions and pieces).  [k] is a natural number:
    for a negative [k] the code does what it does for 0. *)
Fixpoint topk_loop (fuel : nat) (pick : list alignment -> nat) (cost : cost_function) (k : nat) (s1 s2 : text)
    (heap : list alignment) (visited : gmap (nat * nat) nat) (found : list alignment) : outcome (list alignment) :=
  match fuel with
  | 0 => OutOfFuel
  | S fuel =>
    if (length found <? k) && (0 <? length heap) then
      let* a := idx_ (heap !! pick heap) in
      let heap := delete (pick heap) heap in
      let here := (a_pos1 a, a_pos2 a) in
      let n := S (default 0 (visited !! here)) in
      let visited := <[here := n]> visited in
      if k <? n then topk_loop fuel pick cost k s1 s2 heap visited found
      else if (a_pos1 a =? length s1) && (a_pos2 a =? length s2)
      then topk_loop fuel pick cost k s1 s2 heap visited (found ++ [a])
      else topk_loop fuel pick cost k s1 s2 (heap ++ continuations cost s1 s2 a) visited found
    else Ok found
  end.
(** Enough rounds (theorem [topk_terminates]). *)
Definition topk_fuel (k : nat) (s1 s2 : text) : nat := 2 + 4 * (k * (S (length s1) * S (length s2))).
Definition topk_alignments (pick : list alignment -> nat) (k : nat) (s1 s2 : text) (cost : cost_function) : outcome (list alignment) :=
  topk_loop (topk_fuel k s1 s2) pick cost k s1 s2 [Align 0%R 0 0 []] ∅ [].

(** string_alignment.cc:87-94.  [back()] of an alignment without pieces would be undefined
    behaviour; it is never called on one. *)
Definition edit_distance : cost_function := fun ps old =>
  match last ps with
  | Some (Mat _) => old
  | _ => (old + 1)%R
  end.

(** distributions/stringcat.cc:38-58 [StringCat::nearest].  [lowest_distance] starts at the
    greatest double, here [None]. *)
Definition nearest_step (pick : list alignment -> nat) (x : text) (st : text * option R) (s : text) : outcome (text * option R) :=
  let '(best, low) := st in
  let* found := topk_alignments pick 1 s x edit_distance in
  let* a := idx_ (found !! 0) in
  match low with
  | None => Ok (s, Some (a_cost a))
  | Some d => if Rlt_dec (a_cost a) d then Ok (s, Some (a_cost a)) else Ok (best, low)
  end.
Definition stringcat_nearest (pick : list alignment -> nat) (strings : list text) (x : text) : outcome text :=
  if bool_decide (x ∈ strings) then Ok x
  else
    let* s0 := idx_ (strings !! 0) in
    let* (best, _) := foldM (nearest_step pick x) (s0, None) strings in
    Ok best.
