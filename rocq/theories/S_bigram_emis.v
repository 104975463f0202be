(** What the string emission [bigram] learns: edits in context. *)
From Coq Require Import ZArith Reals Ascii.
From stdpp Require Import list gmap.
From Verif Require Import M_base M_text M_math M_dist M_distributions M_align M_bigram_emis S_math S_align.
Local Open Scope nat_scope.

(** The printable characters. *)
Definition printable (c : ascii) : Prop := (32 <= char_val c <= 126)%Z.
Definition choice_ok (o : option ascii) : Prop := match o with None => True | Some c => printable c end.
Definition printables (s : text) : Prop := Forall printable s.

(** Reading an alignment from left to right: before each character of the clean string and
    at every insertion there is a choice what to insert ([None]: nothing), in the context of
    the clean character before it ([None]: at the start); every clean character is replaced
    by a character or deleted ([None]). *)
Fixpoint insertion_choices (ctx : option ascii) (ps : list piece) : list (option ascii * option ascii) :=
  match ps with
  | [] => []
  | Ins c :: ps => (ctx, Some c) :: insertion_choices ctx ps
  | Del c :: ps => (ctx, None) :: insertion_choices (Some c) ps
  | Sub c _ :: ps => (ctx, None) :: insertion_choices (Some c) ps
  | Mat c :: ps => (ctx, None) :: insertion_choices (Some c) ps
  end.
Definition replacement (p : piece) : list (ascii * option ascii) :=
  match p with Ins _ => [] | Del c => [(c, None)] | Sub c d => [(c, Some d)] | Mat c => [(c, Some c)] end.
Definition replacements (ps : list piece) : list (ascii * option ascii) := concat (map replacement ps).
Definition times {A} `{EqDecision A} (x : A) (l : list A) : R := INR (length (filter (fun y => y = x) l)).

(** The weight the emission has recorded for a choice. *)
Definition entry (l : list dc) (i j : Z) : R :=
  match l !! Z.to_nat i with Some d => default 0%R (dc_counts d !! Z.to_nat j) | None => 0%R end.
Definition inserted (b : bse) (ctx what : option ascii) : R := entry (bs_ins b) (bs_index_of ctx) (bs_index_of what).
Definition replaced (b : bse) (c : ascii) (by_ : option ascii) : R := entry (bs_sub b) (bs_index c) (bs_index_of by_).
(** Its estimate of the probability of a choice. *)
Definition share (l : list dc) (i j : Z) : R :=
  match l !! Z.to_nat i with
  | Some d => ((dc_alpha d + default 0 (dc_counts d !! Z.to_nat j)) / (dc_N d + dc_alpha d * INR (length (dc_counts d))))%R
  | None => 0%R
  end.
Definition p_insert (b : bse) (ctx what : option ascii) : R := share (bs_ins b) (bs_index_of ctx) (bs_index_of what).
Definition p_replace (b : bse) (c : ascii) (by_ : option ascii) : R := share (bs_sub b) (bs_index c) (bs_index_of by_).
Definition Rprod (l : list R) : R := foldr Rmult 1%R l.
(** The probability of an alignment under the model that the header describes: every choice
    in the context in which it is made. *)
Definition p_alignment (b : bse) (ps : list piece) : R :=
  (Rprod (map (fun e => p_insert b e.1 e.2) (insertion_choices None ps)) * Rprod (map (fun e => p_replace b e.1 e.2) (replacements ps)))%R.

(** The probability that the search for alignments works with: the context of an insertion is
    the first clean character of the alignment, up to and including the piece at hand. *)
Fixpoint search_choices (first : option ascii) (ps : list piece) : list (option ascii * option ascii) :=
  match ps with
  | [] => []
  | p :: ps =>
    let first := match first with Some c => Some c | None => head (left_of p) end in
    (first, match p with Ins c => Some c | _ => None end) :: search_choices first ps
  end.
Definition p_searched (b : bse) (ps : list piece) : R :=
  (Rprod (map (fun e => p_insert b e.1 e.2) (search_choices None ps)) * Rprod (map (fun e => p_replace b e.1 e.2) (replacements ps)))%R.

(** All contexts and all printable characters. *)
Definition alphabet : list ascii := map (fun n => char_of (Z.of_nat n)) (seq 32 95).
Definition choices : list (option ascii) := None :: map Some alphabet.

(** The tables have the size the constructor gives them, every total is the sum of its
    entries, and the hyperparameters are positive. *)
Definition table_ok (d : dc) : Prop := length (dc_counts d) = bs_contexts /\ dc_N d = Rsum (dc_counts d) /\ (0 < dc_alpha d)%R.
Definition tables_ok (l : list dc) : Prop := length l = bs_contexts /\ Forall table_ok l.
Definition bs_shape (b : bse) : Prop := tables_ok (bs_ins b) /\ tables_ok (bs_sub b).
Definition hyperparameters (b : bse) : list R := map dc_alpha (bs_ins b) ++ map dc_alpha (bs_sub b).

(** Emissions that have only been given observations of positive weight. *)
Inductive bs_reached (lg : R -> R) (pick : list alignment -> nat) : bse -> list (text * text * R) -> Prop :=
| BS_new b : bs_new = Ok b -> bs_reached lg pick b []
| BS_inc b l x w b' : bs_reached lg pick b l -> printables x.1 -> printables x.2 -> (0 < w)%R ->
    bs_incorporate pick b x w = Ok b' -> bs_reached lg pick b' (l ++ [(x, w)])
| BS_hyper b l r b' r' : bs_reached lg pick b l -> bs_transition lg b r = Ok (b', r') -> bs_reached lg pick b' l.

(** ** Proposals *)
(** The string elected from two strings of weights [w1] and [w2] by a given alignment:
    what both have in common stays.  At a difference there are two explanations, the first
    string is right and the second has an error or the other way round; the choice goes to
    the first string if its explanation, times its weight, is strictly more likely.
    [before] is the character elected last. *)
Fixpoint elected (b : bse) (w1 w2 : R) (before : option ascii) (ps : list piece) : text :=
  match ps with
  | [] => []
  | p :: ps =>
    let now := match p with
      | Mat c => Some c
      | Sub c d => Some (if Rlt_dec (p_replace b d (Some c) * w2) (p_replace b c (Some d) * w1) then c else d)
      | Del c => if Rlt_dec (p_insert b before (Some c) * w2) (p_replace b c None * w1) then Some c else None
      | Ins c => if Rlt_dec (p_insert b before (Some c) * w1) (p_replace b c None * w2) then Some c else None
      end in
    match now with Some c => c :: elected b w1 w2 (Some c) ps | None => elected b w1 w2 before ps end
  end.
