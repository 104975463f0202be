(** The emission classes of cxx/emissions: gaussian.hh, bitflip.hh, categorical.hh,
    sometimes.hh and simple_string.hh.  Doubles are exact real numbers. *)
From Coq Require Import ZArith Reals Ascii.
From stdpp Require Import list gmap.
From Verif Require Import M_base M_text M_math M_dist M_distributions M_noisy.
Local Open Scope nat_scope.

(** An emission as [Sometimes] uses it: emissions/base.hh:9-25 with the weight of
    [incorporate]. *)
Record WEmis (V : Type) := MkWEmis {
  we_state : Type;
  we_new : we_state;
  we_inc : we_state -> V * V -> R -> outcome we_state;
  we_logp : we_state -> V * V -> outcome R;
  we_score : we_state -> R;
  we_trans : we_state -> rng -> outcome (we_state * rng);
  we_corrupt : we_state -> V -> rng -> outcome (V * rng);
}.
Global Arguments we_state {V} _.
Global Arguments we_new {V} _.
Global Arguments we_inc {V} _ _ _ _.
Global Arguments we_logp {V} _ _ _.
Global Arguments we_score {V} _ _.
Global Arguments we_trans {V} _ _ _.
Global Arguments we_corrupt {V} _ _ _ _.

(** * Gaussian: emissions/gaussian.hh *)
(** gaussian.hh:6-10 *)
Record gauss := Gauss { ga_N : R; ga_zmn : zmn }.
(** gaussian.hh:12-15 *)
Definition ga_incorporate (g : gauss) (x : R * R) (w : R) : gauss :=
  Gauss (ga_N g + w)%R (zm_incorporate (ga_zmn g) (x.2 - x.1)%R w).
(** gaussian.hh:17-19, :21 *)
Definition ga_logp (lg : R -> R) (g : gauss) (x : R * R) : R := zm_logp lg (ga_zmn g) (x.2 - x.1)%R.
Definition ga_score (lg : R -> R) (g : gauss) : R := zm_score lg (ga_zmn g).
(** gaussian.hh:23-25 *)
Definition ga_transition (lg : R -> R) (g : gauss) (r : rng) : outcome (gauss * rng) :=
  let* (z, r') := zm_transition lg (ga_zmn g) r in Ok (Gauss (ga_N g) z, r').
(** gaussian.hh:27-29 *)
Definition ga_corrupt (smp : R -> rng -> R * rng) (g : gauss) (clean : R) (r : rng) : R * rng :=
  let '(d, r') := zm_sample smp (ga_zmn g) r in ((clean + d)%R, r').
(** gaussian.hh:31-43: the running mean. *)
Definition ga_mean_step (st : R * nat) (c : R) : R * nat :=
  let '(mean, n) := st in ((mean + (c - mean) / INR (S n))%R, S n).
Definition ga_propose (corrupted : list R) : R := (foldl ga_mean_step (0%R, 0) corrupted).1.
Definition gaussian_we (lg : R -> R) (smp : R -> rng -> R * rng) : WEmis R := {|
  we_state := gauss;
  we_new := Gauss 0 zm_new;
  we_inc := fun g x w => Ok (ga_incorporate g x w);
  we_logp := fun g x => Ok (ga_logp lg g x);
  we_score := ga_score lg;
  we_trans := ga_transition lg;
  we_corrupt := fun g c r => Ok (ga_corrupt smp g c r);
|}.
(** The emission as relations use it; [sample] exits (emissions/base.hh:12-15), [nearest]
    returns its argument (distributions/base.hh:57-59). *)
Definition gaussian_emis (lg : R -> R) (smp : R -> rng -> R * rng) : Emis R := {|
  em_dist := {|
    d_spec := unit; d_state := gauss; d_new := fun _ r => (Gauss 0 zm_new, r);
    d_N_zero := fun g => R_is_zero (ga_N g); d_N_pos := fun g => R_is_pos (ga_N g);
    d_inc := fun g x => Ok (ga_incorporate g x 1); d_uninc := fun g x => Ok (ga_incorporate g x (-1));
    d_logp := fun g x => Ok (Some (ga_logp lg g x)); d_score := ga_score lg;
    d_sample := fun _ _ => Exits; d_resample := ga_transition lg; d_nearest := fun _ x => Ok x |};
  em_corrupt := fun g c r => Ok (ga_corrupt smp g c r);
  em_propose := fun _ l r => Ok (ga_propose l, r);
|}.

(** * BitFlip: emissions/bitflip.hh.  Its only state is [N]. *)
(** bitflip.hh:13-16 *)
Definition bf_incorporate (n : R) (x : bool * bool) (w : R) : outcome R :=
  let* _ := assert_ (bool_decide (x.1 <> x.2)) in Ok (n + w)%R.
(** bitflip.hh:18-21 *)
Definition bf_logp (x : bool * bool) : outcome R :=
  let* _ := assert_ (bool_decide (x.1 <> x.2)) in Ok 0%R.
(** bitflip.hh:33-36; [corrupted[0]] is not checked. *)
Definition bf_propose (corrupted : list bool) : outcome bool :=
  let* c := idx_ (corrupted !! 0) in Ok (negb c).
(** bitflip.hh:23-31 *)
Definition bitflip_we : WEmis bool := {|
  we_state := R;
  we_new := 0%R;
  we_inc := bf_incorporate;
  we_logp := fun _ x => bf_logp x;
  we_score := fun _ => 0%R;
  we_trans := fun n r => Ok (n, r);
  we_corrupt := fun _ c r => Ok (negb c, r);
|}.

(** * CategoricalEmission: emissions/categorical.hh.  A state outside the table of
    distributions is undefined behaviour; as an [int] is converted to [size_t], a negative
    one is outside too. *)
Record categ := Categ { cg_N : R; cg_dists : list dc }.
(** categorical.hh:16-21 *)
Definition cg_new (k : nat) : categ := Categ 0 (replicate k (dc_new k)).
Definition cg_row (c : categ) (clean : Z) : outcome (nat * dc) :=
  if bool_decide (0 <= clean)%Z then let* d := idx_ (cg_dists c !! Z.to_nat clean) in Ok (Z.to_nat clean, d) else UB.
(** categorical.hh:23-26 *)
Definition cg_incorporate (c : categ) (x : Z * Z) (w : R) : outcome categ :=
  let* (i, d) := cg_row c x.1 in
  let* d := dc_incorporate d x.2 w in
  Ok (Categ (cg_N c + w)%R (<[i := d]> (cg_dists c))).
(** categorical.hh:28-30 *)
Definition cg_logp (c : categ) (x : Z * Z) : outcome R :=
  let* (i, d) := cg_row c x.1 in dc_logp d x.2.
(** categorical.hh:32-38 *)
Definition cg_score (lg : R -> R) (c : categ) : R := foldl (fun lp d => (lp + dc_score lg d)%R) 0%R (cg_dists c).
(** categorical.hh:40-44 *)
Fixpoint transition_all (lg : R -> R) (ds : list dc) (r : rng) : outcome (list dc * rng) :=
  match ds with
  | [] => Ok ([], r)
  | d :: ds => let* (d, r) := dc_transition lg d r in let* (ds, r) := transition_all lg ds r in Ok (d :: ds, r)
  end.
Definition cg_transition (lg : R -> R) (c : categ) (r : rng) : outcome (categ * rng) :=
  let* (ds, r) := transition_all lg (cg_dists c) r in Ok (Categ (cg_N c) ds, r).
(** categorical.hh:46-48 *)
Definition cg_corrupt (c : categ) (clean : Z) (r : rng) : outcome (Z * rng) :=
  let* (i, d) := cg_row c clean in Ok (dc_sample d r).
(** categorical.hh:50-67.  [best_clean_logp] starts at the lowest double, here [None]; a
    logarithm is never that low. *)
Definition cg_total (d : dc) (corrupted : list Z) : outcome R :=
  foldM (fun lp c => let* l := dc_logp d c in Ok (lp + l)%R) 0%R corrupted.
Definition cg_propose_step (corrupted : list Z) (st : nat * Z * option R) (d : dc) : outcome (nat * Z * option R) :=
  let '(i, best, low) := st in
  let* lp := cg_total d corrupted in
  Ok (match low with
      | None => (S i, Z.of_nat i, Some lp)
      | Some b => if Rlt_dec b lp then (S i, Z.of_nat i, Some lp) else (S i, best, low)
      end).
Definition cg_propose (c : categ) (corrupted : list Z) : outcome Z :=
  let* (st, low) := foldM (cg_propose_step corrupted) (0, 0%Z, None) (cg_dists c) in Ok st.2.
Definition categorical_we (lg : R -> R) (k : nat) : WEmis Z := {|
  we_state := categ;
  we_new := cg_new k;
  we_inc := cg_incorporate;
  we_logp := cg_logp;
  we_score := cg_score lg;
  we_trans := cg_transition lg;
  we_corrupt := cg_corrupt;
|}.

(** * The most frequent value
    sometimes.hh:79-89 and simple_string.hh:165-181.  The hash map of counts is a function. *)
Definition mode_step {V} `{EqDecision V} (st : (V -> nat) * V * nat) (c : V) : (V -> nat) * V * nat :=
  let '(counts, mode, max) := st in
  let counts := fun x => if decide (x = c) then S (counts c) else counts x in
  if max <? counts c then (counts, c, counts c) else (counts, mode, max).
Definition mode_of {V} `{EqDecision V} (start : V) (l : list V) : V :=
  (foldl mode_step (fun _ => 0, start, 0) l).1.2.

(** * Sometimes: emissions/sometimes.hh *)
Section Sometimes.
Context {V : Type} `{EqDecision V} (B : WEmis V) (dirty_can_equal_clean : bool) (lg : R -> R).
(** sometimes.hh:12-27 *)
Record sometimes := Sometimes_ { sm_N : R; sm_bb : bb; sm_be : we_state B }.
Definition sm_new : sometimes := Sometimes_ 0 bb_new (we_new B).
(** sometimes.hh:33-50 *)
Definition sm_incorporate (s : sometimes) (x : V * V) (w : R) : outcome sometimes :=
  let N := (sm_N s + w)%R in
  if decide (x.1 = x.2) then
    if dirty_can_equal_clean then
      let* lp := we_logp B (sm_be s) x in
      let p := exp (bb_logp (sm_bb s) true + lp) in
      let b := bb_incorporate (sm_bb s) true (p * w)%R in
      let* be := we_inc B (sm_be s) x (p * w)%R in
      Ok (Sometimes_ N (bb_incorporate b false ((1 - p) * w)%R) be)
    else Ok (Sometimes_ N (bb_incorporate (sm_bb s) false w) (sm_be s))
  else
    let* be := we_inc B (sm_be s) x w in
    Ok (Sometimes_ N (bb_incorporate (sm_bb s) true w) be).
(** sometimes.hh:52-60 *)
Definition sm_logp (s : sometimes) (x : V * V) : outcome R :=
  if decide (x.1 = x.2) then
    if dirty_can_equal_clean then
      let* lp := we_logp B (sm_be s) x in
      Ok (ln (exp (bb_logp (sm_bb s) false) + exp (bb_logp (sm_bb s) true + lp)))
    else Ok (bb_logp (sm_bb s) false)
  else
    let* lp := we_logp B (sm_be s) x in Ok (bb_logp (sm_bb s) true + lp)%R.
(** sometimes.hh:62 *)
Definition sm_score (s : sometimes) : R := (bb_score lg (sm_bb s) + we_score B (sm_be s))%R.
(** sometimes.hh:64-67 *)
Definition sm_transition (s : sometimes) (r : rng) : outcome (sometimes * rng) :=
  let* (be, r) := we_trans B (sm_be s) r in
  let* (b, r) := bb_transition lg (sm_bb s) r in
  Ok (Sometimes_ (sm_N s) b be, r).
(** sometimes.hh:69-74 *)
Definition sm_corrupt (s : sometimes) (clean : V) (r : rng) : outcome (V * rng) :=
  let* (b, r) := bb_sample (sm_bb s) r in
  if b : bool then we_corrupt B (sm_be s) clean r else Ok (clean, r).
(** sometimes.hh:76-91; [corrupted[0]] is not checked. *)
Definition sm_propose (corrupted : list V) : outcome V :=
  let* c0 := idx_ (corrupted !! 0) in Ok (mode_of c0 corrupted).
Definition sometimes_emis : Emis V := {|
  em_dist := {|
    d_spec := unit; d_state := sometimes; d_new := fun _ r => (sm_new, r);
    d_N_zero := fun s => R_is_zero (sm_N s); d_N_pos := fun s => R_is_pos (sm_N s);
    d_inc := fun s x => sm_incorporate s x 1; d_uninc := fun s x => sm_incorporate s x (-1);
    d_logp := fun s x => let* l := sm_logp s x in Ok (Some l); d_score := sm_score;
    d_sample := fun _ _ => Exits; d_resample := sm_transition; d_nearest := fun _ x => Ok x |};
  em_corrupt := sm_corrupt;
  em_propose := fun _ l r => let* m := sm_propose l in Ok (m, r);
|}.
End Sometimes.
Global Arguments Sometimes_ {V} B _ _ _.
Global Arguments sm_N {V B} _.
Global Arguments sm_bb {V B} _.
Global Arguments sm_be {V B} _.

(** get_emission.cc:46-68 *)
Global Instance R_eq_dec : EqDecision R := Req_EM_T.
Definition sometimes_bitflip (lg : R -> R) : Emis bool := sometimes_emis bitflip_we false lg.
Definition sometimes_gaussian (lg : R -> R) (smp : R -> rng -> R * rng) : Emis R := sometimes_emis (gaussian_we lg smp) false lg.
Definition sometimes_categorical (lg : R -> R) (k : nat) : Emis Z := sometimes_emis (categorical_we lg k) true lg.

(** * SimpleStringEmission: emissions/simple_string.hh *)
(** simple_string.hh:14-24 *)
Record simple := Simple { ss_N : R; ss_sub : bb; ss_ins : bb; ss_del : bb }.
Definition ss_new : simple := Simple 0 bb_new bb_new bb_new.
Definition trial_sub (s : simple) (x : bool) (w : R) : simple := Simple (ss_N s) (bb_incorporate (ss_sub s) x w) (ss_ins s) (ss_del s).
Definition trial_ins (s : simple) (x : bool) (w : R) : simple := Simple (ss_N s) (ss_sub s) (bb_incorporate (ss_ins s) x w) (ss_del s).
Definition trial_del (s : simple) (x : bool) (w : R) : simple := Simple (ss_N s) (ss_sub s) (ss_ins s) (bb_incorporate (ss_del s) x w).
(** simple_string.hh:36-112 [corporate].  [fuel]: every call is on shorter strings. *)
Fixpoint corporate (fuel : nat) (s : simple) (clean dirty : text) (w : R) : outcome simple :=
  match fuel with
  | 0 => OutOfFuel
  | S fuel =>
    match clean, dirty with
    | [], [] => Ok (trial_ins s false w)
    | [], _ => Ok (trial_ins s true (w * INR (length dirty))%R)
    | _, [] => Ok (trial_ins (trial_del s true (w * INR (length clean))%R) false (w * INR (length clean))%R)
    | c :: clean', d :: dirty' =>
      if ceqb c d then
        corporate fuel (trial_del (trial_ins (trial_sub s false w) false w) false w) clean' dirty' w
      else if bool_decide (last clean = last dirty) then
        corporate fuel (trial_del (trial_ins (trial_sub s false w) false w) false w)
          (take (length clean - 1) clean) (take (length dirty - 1) dirty) w
      else if length clean <? length dirty then
        corporate fuel (trial_ins s true w) clean dirty' w
      else if length dirty <? length clean then
        corporate fuel (trial_ins (trial_del s true w) false w) clean' dirty w
      else
        corporate fuel (trial_del (trial_ins (trial_sub s true w) false w) false w) clean' dirty' w
    end
  end.
(** simple_string.hh:26-30 *)
Definition ss_incorporate (s : simple) (x : text * text) (w : R) : outcome simple :=
  corporate (S (length x.1 + length x.2)) (Simple (ss_N s + w)%R (ss_sub s) (ss_ins s) (ss_del s)) x.1 x.2 w.
(** simple_string.hh:121-127; [log(highest_char + 1 - lowest_char)] is the logarithm of 95. *)
Definition ss_score (lg : R -> R) (s : simple) : R :=
  (bb_score lg (ss_sub s) + bb_score lg (ss_ins s) + bb_score lg (ss_del s)
   + IZR (bb_s (ss_sub s) + bb_s (ss_ins s)) * ln (IZR (126 + 1 - 32)))%R.
(** simple_string.hh:114-119: the object is changed and changed back; the second component
    is what is left. *)
Definition ss_logp (lg : R -> R) (s : simple) (x : text * text) : outcome (R * simple) :=
  let* s1 := ss_incorporate s x 1 in
  let* s2 := ss_incorporate s1 x (-1) in
  Ok ((ss_score lg s1 - ss_score lg s2)%R, s2).
(** simple_string.hh:129-133 *)
Definition ss_transition (lg : R -> R) (s : simple) (r : rng) : outcome (simple * rng) :=
  let* (a, r) := bb_transition lg (ss_sub s) r in
  let* (b, r) := bb_transition lg (ss_ins s) r in
  let* (c, r) := bb_transition lg (ss_del s) r in
  Ok (Simple (ss_N s) a b c, r).
(** simple_string.hh:135-138: the bounds of [uniform_int_distribution] are inclusive. *)
Definition random_character (r : rng) : ascii * rng :=
  let '(i, r) := choose_index (127 - 32 + 1) r in (ascii_of_nat (32 + i), r).
(** simple_string.hh:143-145, :155-157: insertions until one does not happen. *)
Fixpoint random_insertions (fuel : nat) (s : simple) (out : text) (r : rng) : outcome (text * rng) :=
  match fuel with
  | 0 => OutOfFuel
  | S fuel =>
    let* (b, r) := bb_sample (ss_ins s) r in
    if b : bool then let '(c, r) := random_character r in random_insertions fuel s (out ++ [c]) r
    else Ok (out, r)
  end.
(** simple_string.hh:142-154: one character of the clean string. *)
Definition corrupt_char (s : simple) (st : text * rng) (c : ascii) : outcome (text * rng) :=
  let '(out, r) := st in
  let* (out, r) := random_insertions (S (length r)) s out r in
  let* (b, r) := bb_sample (ss_del s) r in
  if b : bool then Ok (out, r)
  else
    let* (b, r) := bb_sample (ss_sub s) r in
    if b : bool then let '(c', r) := random_character r in Ok (out ++ [c'], r)
    else Ok (out ++ [c], r).
(** simple_string.hh:140-159 [sample_corrupted] *)
Definition ss_corrupt (s : simple) (clean : text) (r : rng) : outcome (text * rng) :=
  let* (out, r) := foldM (corrupt_char s) ([], r) clean in
  random_insertions (S (length r)) s out r.
(** simple_string.hh:161-190 [propose_clean]: a vote on every position, until the string's
    end wins. *)
Definition nul : ascii := zero.
Definition char_at (i : nat) (s : text) : ascii := default nul (s !! i).
Fixpoint vote (fuel i : nat) (corrupted : list text) (clean : text) : outcome text :=
  match fuel with
  | 0 => OutOfFuel
  | S fuel =>
    let mode := mode_of nul (map (char_at i) corrupted) in
    if ceqb mode nul then Ok clean else vote fuel (S i) corrupted (clean ++ [mode])
  end.
Definition ss_propose (corrupted : list text) : outcome text :=
  vote (S (max_list_with length corrupted)) 0 corrupted [].
Definition simple_string_emis (lg : R -> R) : Emis text := {|
  em_dist := {|
    d_spec := unit; d_state := simple; d_new := fun _ r => (ss_new, r);
    d_N_zero := fun s => R_is_zero (ss_N s); d_N_pos := fun s => R_is_pos (ss_N s);
    d_inc := fun s x => ss_incorporate s x 1; d_uninc := fun s x => ss_incorporate s x (-1);
    d_logp := fun s x => let* (l, _) := ss_logp lg s x in Ok (Some l); d_score := ss_score lg;
    d_sample := fun _ _ => Exits; d_resample := ss_transition lg; d_nearest := fun _ x => Ok x |};
  em_corrupt := ss_corrupt;
  em_propose := fun _ l r => let* m := ss_propose l in Ok (m, r);
|}.
