(** The string emission [bigram]: emissions/bigram_string.{hh,cc}.  Doubles are exact real
    numbers; [pick] says which of the cheapest alignments the heap gives (M_align). *)
From Coq Require Import ZArith Reals Ascii.
From stdpp Require Import list gmap.
From Verif Require Import M_base M_text M_math M_dist M_distributions M_noisy M_align.
Local Open Scope nat_scope.

(** bigram_string.hh:16-22 *)
Record bse := BSE { bs_ins : list dc; bs_sub : list dc; bs_N : R }.
(** bigram_string.cc:19: [2 + highest_char - lowest_char], that is [2 + 126 - 32]. *)
Definition bs_contexts : nat := 96.
(** bigram_string.cc:31 *)
Definition bs_bias : R := IZR (Z.of_nat bs_contexts * Z.of_nat bs_contexts).

(** bigram_string.cc:38-48 [get_index].  The result is a [size_t]: below zero stands for the
    huge number it wraps to.  A context is the empty string or one character. *)
Definition bs_index (c : ascii) : Z := (char_val c - 32 + 1)%Z.
Definition bs_index_of (ctx : option ascii) : Z := match ctx with None => 0%Z | Some c => bs_index c end.
(** bigram_string.cc:50-56 [category_to_char] *)
Definition bs_char (k : Z) : option ascii := if bool_decide (k = 0)%Z then None else Some (char_of (32 + (k - 1))%Z).

(** [operator[]] of a vector with the result of [get_index]. *)
Definition bs_at (l : list dc) (k : Z) : outcome dc := if bool_decide (0 <= k)%Z then idx_ (l !! Z.to_nat k) else UB.
Definition bs_add (l : list dc) (k x : Z) (w : R) : outcome (list dc) :=
  let* d := bs_at l k in
  let* d := dc_incorporate d x w in
  Ok (<[Z.to_nat k := d]> l).
Definition bs_add_ins (b : bse) (k x : Z) (w : R) : outcome bse :=
  let* l := bs_add (bs_ins b) k x w in Ok (BSE l (bs_sub b) (bs_N b)).
Definition bs_add_sub (b : bse) (k x : Z) (w : R) : outcome bse :=
  let* l := bs_add (bs_sub b) k x w in Ok (BSE (bs_ins b) l (bs_N b)).
Definition bs_lp_at (l : list dc) (k x : Z) : outcome R := let* d := bs_at l k in dc_logp d x.

(** bigram_string.cc:16-36 constructor. *)
Definition bs_bias_step (b : bse) (i : nat) : outcome bse :=
  let* b := bs_add_ins b (Z.of_nat i) 0 bs_bias in
  bs_add_sub b (Z.of_nat i) (Z.of_nat i) bs_bias.
Definition bs_new : outcome bse :=
  foldM bs_bias_step (BSE (replicate bs_contexts (dc_new bs_contexts)) (replicate bs_contexts (dc_new bs_contexts)) 0)
    (seq 0 bs_contexts).

(** bigram_string.cc:60-77: the loop runs over the pieces from the last to the first; [break]
    leaves the [switch] only. *)
Definition bs_context (ps : list piece) : option ascii :=
  foldl (fun ctx p => match p with Del c => Some c | Ins _ => ctx | Sub a _ => Some a | Mat c => Some c end) None (rev ps).
(** bigram_string.cc:58-116 [log_prob_distance], the number it subtracts from the old cost. *)
Definition bs_log_prob (b : bse) (ps : list piece) : outcome R :=
  let k := bs_index_of (bs_context ps) in
  match last ps with
  | None => AssertFail
  | Some (Ins c) => bs_lp_at (bs_ins b) k (bs_index c)
  | Some p =>
    let* l := bs_lp_at (bs_ins b) k 0 in
    let* l' := match p with
               | Del c => bs_lp_at (bs_sub b) (bs_index c) 0
               | Sub c c' => bs_lp_at (bs_sub b) (bs_index c) (bs_index c')
               | Mat c => bs_lp_at (bs_sub b) (bs_index c) (bs_index c)
               | Ins _ => UB
               end in
    Ok (l + l')%R
  end.
(** The cost function handed to [topk_alignments]; M_align wants a total function, see
    [bs_alignments]. *)
Definition bs_cost (b : bse) : cost_function := fun ps old =>
  (old - match bs_log_prob b ps with Ok l => l | _ => 0 end)%R.
(** bigram_string.cc:124-129, :242-246: [topk_alignments] with that cost function.  The search
    looks up every character of both strings before it ends, so it fails when one of them has
    no place in the tables.  Simplification: a character of the first string that has none is
    undefined behaviour here (an index out of range) and one of the second a failing
    assertion, whichever the search meets first. *)
Definition bs_knows (b : bse) (c : ascii) : outcome unit := let* _ := bs_at (bs_sub b) (bs_index c) in Ok tt.
Definition bs_alignments (pick : list alignment -> nat) (b : bse) (k : nat) (s1 s2 : text) : outcome (list alignment) :=
  let* _ := foldM (fun _ c => bs_knows b c) tt s1 in
  let* _ := assert_ (forallb (fun c => bool_decide (0 <= bs_index c < Z.of_nat bs_contexts)%Z) s2) in
  topk_alignments pick k s1 s2 (bs_cost b).

(** bigram_string.cc:140-180: one piece of an alignment. *)
Definition bs_piece (w : R) (st : bse * option ascii) (p : piece) : outcome (bse * option ascii) :=
  let '(b, ctx) := st in
  let k := bs_index_of ctx in
  match p with
  | Del c => let* b := bs_add_ins b k 0 w in let* b := bs_add_sub b (bs_index c) 0 w in Ok (b, Some c)
  | Ins c => let* b := bs_add_ins b k (bs_index c) w in Ok (b, ctx)
  | Sub c c' => let* b := bs_add_ins b k 0 w in let* b := bs_add_sub b (bs_index c) (bs_index c') w in Ok (b, Some c)
  | Mat c => let* b := bs_add_ins b k 0 w in let* b := bs_add_sub b (bs_index c) (bs_index c) w in Ok (b, Some c)
  end.
(** bigram_string.cc:131-138, :137-181: one alignment.  [total] is [total_prob]; [exp] is taken of the
    cost as it is, a negative log probability. *)
Definition bs_learn (weight total : R) (b : bse) (a : alignment) : outcome bse :=
  let w := (weight * exp (a_cost a) / total)%R in
  let* (b, _) := foldM (bs_piece w) (b, None) (a_pieces a) in Ok b.
(** bigram_string.cc:118-182 [incorporate]; :14 says two alignments. *)
Definition bs_incorporate (pick : list alignment -> nat) (b : bse) (x : text * text) (weight : R) : outcome bse :=
  let b := BSE (bs_ins b) (bs_sub b) (bs_N b + weight)%R in
  let* found := bs_alignments pick b 2 x.1 x.2 in
  let total := foldl (fun t a => (t + exp (a_cost a))%R) 0%R found in
  foldM (bs_learn weight total) b found.
(** distributions/base.hh:20-25 *)
Definition bs_unincorporate (pick : list alignment -> nat) (b : bse) (x : text * text) : outcome bse := bs_incorporate pick b x (-1).
(** bigram_string.cc:195-204 [logp_score] *)
Definition bs_score (lg : R -> R) (b : bse) : R :=
  foldl (fun l d => (l + dc_score lg d)%R) (foldl (fun l d => (l + dc_score lg d)%R) 0%R (bs_ins b)) (bs_sub b).
(** bigram_string.cc:184-193 [logp]: works on a copy. *)
Definition bs_logp (lg : R -> R) (pick : list alignment -> nat) (b : bse) (x : text * text) : outcome R :=
  let* b' := bs_incorporate pick b x 1 in Ok (bs_score lg b' - bs_score lg b)%R.
(** bigram_string.cc:206-213 [transition_hyperparameters] *)
Fixpoint bs_hypers (lg : R -> R) (l : list dc) (r : rng) : outcome (list dc * rng) :=
  match l with
  | [] => Ok ([], r)
  | d :: l => let* (d, r) := dc_transition lg d r in let* (l, r) := bs_hypers lg l r in Ok (d :: l, r)
  end.
Definition bs_transition (lg : R -> R) (b : bse) (r : rng) : outcome (bse * rng) :=
  let* (i, r) := bs_hypers lg (bs_ins b) r in
  let* (s, r) := bs_hypers lg (bs_sub b) r in
  Ok (BSE i s (bs_N b), r).

(** bigram_string.cc:221-224, :229-232: insertions until "none" is drawn.  The number of
    rounds is bounded by the numbers left in the generator; once it gives nothing but 0 the
    loop ends. *)
Fixpoint bs_insertions (fuel : nat) (b : bse) (ctx : option ascii) (out : text) (r : rng) : outcome (text * rng) :=
  match fuel with
  | 0 => OutOfFuel
  | S fuel =>
    let* d := bs_at (bs_ins b) (bs_index_of ctx) in
    let '(k, r) := dc_sample d r in
    match bs_char k with None => Ok (out, r) | Some c => bs_insertions fuel b ctx (out ++ [c]) r end
  end.
(** bigram_string.cc:220-228: one character of the clean string. *)
Definition bs_corrupt_char (b : bse) (st : text * option ascii * rng) (c : ascii) : outcome (text * option ascii * rng) :=
  let '(out, ctx, r) := st in
  let* (out, r) := bs_insertions (S (length r)) b ctx out r in
  let* d := bs_at (bs_sub b) (bs_index c) in
  let '(k, r) := dc_sample d r in
  Ok (out ++ option_list (bs_char k), Some c, r).
(** bigram_string.cc:215-234 [sample_corrupted] *)
Definition bs_corrupt (b : bse) (clean : text) (r : rng) : outcome (text * rng) :=
  let* (out, ctx, r) := foldM (bs_corrupt_char b) ([], None, r) clean in
  bs_insertions (S (length r)) b ctx out r.

(** bigram_string.cc:249-292: one piece of the alignment. *)
Definition bs_vote_piece (b : bse) (w1 w2 : R) (st : text * option ascii) (p : piece) : outcome (text * option ascii) :=
  let '(clean, ctx) := st in
  let k := bs_index_of ctx in
  let* new := match p with
    | Del c =>
      let* l1 := bs_lp_at (bs_sub b) (bs_index c) 0 in
      let* l2 := bs_lp_at (bs_ins b) k (bs_index c) in
      Ok (if Rlt_dec (l2 + ln w2) (l1 + ln w1) then Some c else None)
    | Ins c =>
      let* l1 := bs_lp_at (bs_ins b) k (bs_index c) in
      let* l2 := bs_lp_at (bs_sub b) (bs_index c) 0 in
      Ok (if Rlt_dec (l1 + ln w1) (l2 + ln w2) then Some c else None)
    | Sub c c' =>
      let* l1 := bs_lp_at (bs_sub b) (bs_index c) (bs_index c') in
      let* l2 := bs_lp_at (bs_sub b) (bs_index c') (bs_index c) in
      Ok (Some (if Rlt_dec (l2 + ln w2) (l1 + ln w1) then c else c'))
    | Mat c => Ok (Some c)
    end in
  match new with Some c => Ok (clean ++ [c], Some c) | None => Ok (clean, ctx) end.
(** bigram_string.cc:236-294 [two_string_vote] *)
Definition bs_vote (pick : list alignment -> nat) (b : bse) (s1 s2 : text) (w1 w2 : R) : outcome text :=
  let* found := bs_alignments pick b 1 s1 s2 in
  let* a := idx_ (found !! 0) in
  let* (clean, _) := foldM (bs_vote_piece b w1 w2) ([], None) (a_pieces a) in Ok clean.
(** bigram_string.cc:315-325: one round; a string without partner goes on with weight 1. *)
Fixpoint bs_round (pick : list alignment -> nat) (b : bse) (l : list (text * R)) : outcome (list (text * R)) :=
  match l with
  | p :: q :: l =>
    let* s := bs_vote pick b p.1 q.1 p.2 q.2 in
    let* l := bs_round pick b l in
    Ok ((s, (p.2 + q.2)%R) :: l)
  | [p] => Ok [(p.1, 1%R)]
  | [] => Ok []
  end.
(** bigram_string.cc:296-327 [propose_clean_with_weights]; [fuel] bounds the number of rounds. *)
Fixpoint bs_tournament (fuel : nat) (pick : list alignment -> nat) (b : bse) (l : list (text * R)) : outcome text :=
  match fuel with
  | 0 => OutOfFuel
  | S fuel =>
    match l with
    | [] => Ok []
    | [p] => Ok p.1
    | _ => let* l := bs_round pick b l in bs_tournament fuel pick b l
    end
  end.
(** bigram_string.cc:329-333 [propose_clean] *)
Definition bs_propose (pick : list alignment -> nat) (b : bse) (corrupted : list text) : outcome text :=
  bs_tournament (S (length corrupted)) pick b (map (fun s => (s, 1%R)) corrupted).

(** The emission as the relations use it; the default state stands for the constructor, which
    does not fail ([C68_new]). *)
Definition bigram_emis (lg : R -> R) (pick : list alignment -> nat) : Emis text := {|
  em_dist := {|
    d_spec := unit; d_state := bse;
    d_new := fun _ r => (match bs_new with Ok b => b | _ => BSE [] [] 0 end, r);
    d_N_zero := fun b => R_is_zero (bs_N b); d_N_pos := fun b => R_is_pos (bs_N b);
    d_inc := fun b x => bs_incorporate pick b x 1; d_uninc := bs_unincorporate pick;
    d_logp := fun b x => let* l := bs_logp lg pick b x in Ok (Some l); d_score := bs_score lg;
    d_sample := fun _ _ => Exits; d_resample := bs_transition lg; d_nearest := fun _ x => Ok x |};
  em_corrupt := bs_corrupt;
  em_propose := fun b l r => let* m := bs_propose pick b l in Ok (m, r);
|}.
