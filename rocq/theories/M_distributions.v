(** Models of the distribution classes of cxx/distributions.  Doubles are exact
    real numbers; [lg] is the C library's [lgamma].  A logarithm of a
    non-positive number (NaN or minus infinity in C++) does not occur for states
    built by the operations with positive hyperparameters; the theorems carry
    that hypothesis where it matters. *)
From stdpp Require Import gmap strings list.
From Coq Require Import ZArith Reals Ascii.
From Verif Require Import M_base M_math M_dist.
Local Open Scope R_scope.

(** Conversion of a double to [int]: truncation towards zero. *)
Definition to_int (y : R) : Z :=
  if Rle_dec 0 y then Int_part y else (- Int_part (- y))%Z.

(** util_math.cc:101-109: the weights [sample_from_logps] hands to
    [std::discrete_distribution]; [max_element] of an empty vector is undefined. *)
Definition sample_weights (lps : list R) : outcome (list R) :=
  let* m := idx_ (lps !! max_element_index (Some <$> lps)) in
  Ok ((fun lp => exp (lp - m)) <$> lps).

(** util_math.cc:101-110 [sample_from_logps]. *)
Definition sample_from_logps (lps : list R) (r : rng) : outcome (nat * rng) :=
  let* ws := sample_weights lps in
  Ok (choose_index (length ws) r).

(** The common shape of every [transition_hyperparameters]: score each point of
    a grid and pick one (in exact arithmetic no score is NaN, so none is
    dropped); [assert(false)] when there is none. *)
Definition grid_transition {H} (score : H -> R) (grid : list H) (r : rng) : outcome (H * rng) :=
  match grid with
  | [] => AssertFail
  | _ =>
    let* (i, r') := sample_from_logps (score <$> grid) r in
    let* h := idx_ (grid !! i) in
    Ok (h, r')
  end.

(** * BetaBernoulli: distributions/beta_bernoulli.{hh,cc} *)

(** beta_bernoulli.hh:10-23, base.hh:13; [int s] is a [Z]. *)
Record bb := BB { bb_alpha : R; bb_beta : R; bb_N : R; bb_s : Z }.

(** beta_bernoulli.hh:12-14. *)
Definition bb_new : bb := BB 1 1 0 0.

Definition b2r (x : bool) : R := if x then 1 else 0.

(** beta_bernoulli.cc:10-14 [incorporate]; [s += weight * x] converts the sum
    back to [int]. *)
Definition bb_incorporate (b : bb) (x : bool) (w : R) : bb :=
  BB (bb_alpha b) (bb_beta b) (bb_N b + w) (to_int (IZR (bb_s b) + w * b2r x)).

(** base.hh:20-25 [unincorporate]. *)
Definition bb_unincorporate (b : bb) (x : bool) : bb := bb_incorporate b x (-1).

(** beta_bernoulli.cc:16-21 [logp]. *)
Definition bb_logp (b : bb) (x : bool) : R :=
  let log_denom := ln (bb_N b + bb_alpha b + bb_beta b) in
  let log_numer := if x then ln (IZR (bb_s b) + bb_alpha b)
                   else ln (bb_N b - IZR (bb_s b) + bb_beta b) in
  log_numer - log_denom.

(** beta_bernoulli.cc:23-27 [logp_score]. *)
Definition bb_score (lg : R -> R) (b : bb) : R :=
  lbeta lg (IZR (bb_s b) + bb_alpha b) (bb_N b - IZR (bb_s b) + bb_beta b)
  - lbeta lg (bb_alpha b) (bb_beta b).

(** beta_bernoulli.cc:30-32: the weights of [false] and [true] in [sample]. *)
Definition bb_sample_weights (b : bb) : list R := [1 - exp (bb_logp b true); exp (bb_logp b true)].

(** beta_bernoulli.cc:29-35 [sample]. *)
Definition bb_sample (b : bb) (r : rng) : outcome (bool * rng) :=
  let '(i, r') := choose_index (length (bb_sample_weights b)) r in
  let* x := idx_ ([false; true] !! i) in
  Ok (x, r').

(** beta_bernoulli.hh:20-23: both grids; beta_bernoulli.cc:41-51: all pairs. *)
Definition bb_grid : outcome (list (R * R)) :=
  let* ag := log_linspace (1 / 10000) 10000 10 true in
  let* bg := log_linspace (1 / 10000) 10000 10 true in
  Ok (ag ≫= fun a => (fun b => (a, b)) <$> bg).
Definition bb_set (b : bb) (h : R * R) : bb := BB h.1 h.2 (bb_N b) (bb_s b).

(** beta_bernoulli.cc:37-60 [transition_hyperparameters]. *)
Definition bb_transition (lg : R -> R) (b : bb) (r : rng) : outcome (bb * rng) :=
  let* grid := bb_grid in
  let* (h, r') := grid_transition (fun h => bb_score lg (bb_set b h)) grid r in
  Ok (bb_set b h, r').

(** [N == 0] and [N > 0] on a double. *)
Definition R_is_zero (x : R) : bool := if Req_EM_T x 0 then true else false.
Definition R_is_pos (x : R) : bool := if Rlt_dec 0 x then true else false.

(** BetaBernoulli as the distribution of a relation. *)
Definition bb_dist (lg : R -> R) : Dist bool := {|
  d_spec := unit;
  d_state := bb;
  d_new := fun _ r => (bb_new, r);
  d_N_zero := fun b => R_is_zero (bb_N b);
  d_N_pos := fun b => R_is_pos (bb_N b);
  d_inc := fun b x => Ok (bb_incorporate b x 1);
  d_uninc := fun b x => Ok (bb_unincorporate b x);
  d_logp := fun b x => Ok (Some (bb_logp b x));
  d_score := bb_score lg;
  d_sample := fun b r => let* (x, r') := bb_sample b r in Ok (x, b, r');
  d_resample := bb_transition lg;
  d_nearest := fun _ x => Ok x;
|}.

(** * DirichletCategorical: distributions/dirichlet_categorical.{hh,cc} *)

(** dirichlet_categorical.hh:13-20. *)
Record dc := DC { dc_alpha : R; dc_counts : list R; dc_N : R }.
Definition dc_new (k : nat) : dc := DC 1 (replicate k 0) 0.

(** dirichlet_categorical.cc:13, :19 the range assertion. *)
Definition dc_in_range (d : dc) (x : Z) : bool :=
  bool_decide (0 <= x < Z.of_nat (length (dc_counts d)))%Z.

(** dirichlet_categorical.cc:12-16 [incorporate]. *)
Definition dc_incorporate (d : dc) (x : Z) (w : R) : outcome dc :=
  let* _ := assert_ (dc_in_range d x) in
  let* c := idx_ (dc_counts d !! Z.to_nat x) in
  Ok (DC (dc_alpha d) (<[Z.to_nat x := c + w]> (dc_counts d)) (dc_N d + w)).
Definition dc_unincorporate (d : dc) (x : Z) : outcome dc := dc_incorporate d x (-1).

(** dirichlet_categorical.cc:18-23 [logp]. *)
Definition dc_logp (d : dc) (x : Z) : outcome R :=
  let* _ := assert_ (dc_in_range d x) in
  let* c := idx_ (dc_counts d !! Z.to_nat x) in
  Ok (ln (dc_alpha d + c) - ln (dc_N d + dc_alpha d * INR (length (dc_counts d)))).

(** dirichlet_categorical.cc:25-33 [logp_score]. *)
Definition dc_score (lg : R -> R) (d : dc) : R :=
  let k := INR (length (dc_counts d)) in
  let a := dc_alpha d * k in
  lg a - lg (a + dc_N d)
  + foldl (fun acc x => acc + lg (x + dc_alpha d)) 0 (dc_counts d)
  - k * lg (dc_alpha d).

(** dirichlet_categorical.cc:36-39: the weights of [sample]; the lambda takes the
    count as [size_t], dropping its fractional part (a negative count would be
    undefined). *)
Definition dc_sample_weights (d : dc) : list R :=
  (fun y => IZR (to_int y) + dc_alpha d) <$> dc_counts d.

(** dirichlet_categorical.cc:35-40 [sample]. *)
Definition dc_sample (d : dc) (r : rng) : Z * rng :=
  let '(i, r') := choose_index (length (dc_sample_weights d)) r in (Z.of_nat i, r').

(** dirichlet_categorical.hh:10-11. *)
Definition alpha_grid : list R :=
  [1 / 10000; 1 / 1000; 1 / 100; 1 / 10; 1; 10; 100; 1000; 10000].
Definition dc_set (d : dc) (a : R) : dc := DC a (dc_counts d) (dc_N d).

(** dirichlet_categorical.cc:42-61 [transition_hyperparameters]. *)
Definition dc_transition (lg : R -> R) (d : dc) (r : rng) : outcome (dc * rng) :=
  let* (a, r') := grid_transition (fun a => dc_score lg (dc_set d a)) alpha_grid r in
  Ok (dc_set d a, r').

(** dirichlet_categorical.cc:63-72 [nearest]; for an empty [counts],
    [counts.size() - 1] wraps and converts to the int -1. *)
Definition dc_nearest (d : dc) (x : Z) : Z :=
  if bool_decide (x < 0)%Z then 0%Z
  else if bool_decide (Z.of_nat (length (dc_counts d)) <= x)%Z
       then (Z.of_nat (length (dc_counts d)) - 1)%Z
       else x.

Definition dc_dist (lg : R -> R) (k : nat) : Dist Z := {|
  d_spec := unit;
  d_state := dc;
  d_new := fun _ r => (dc_new k, r);
  d_N_zero := fun d => R_is_zero (dc_N d);
  d_N_pos := fun d => R_is_pos (dc_N d);
  d_inc := fun d x => dc_incorporate d x 1;
  d_uninc := dc_unincorporate;
  d_logp := fun d x => let* l := dc_logp d x in Ok (Some l);
  d_score := dc_score lg;
  d_sample := fun d r => let '(x, r') := dc_sample d r in Ok (x, d, r');
  d_resample := dc_transition lg;
  d_nearest := fun d x => Ok (dc_nearest d x);
|}.

(** * Normal: distributions/normal.{hh,cc} *)

(** normal.hh:26-39. *)
Record normal := Normal_ {
  nm_r : R; nm_v : R; nm_m : R; nm_s : R; nm_N : R; nm_mean : R; nm_var : R }.
Definition nm_new : normal := Normal_ 1 1 0 1 0 0 0.

(** normal.cc:10-13 [logZ]. *)
Definition logZ (lg : R -> R) (r v s : R) : R :=
  (v + 1) / 2 * ln 2 + 1 / 2 * ln PI - 1 / 2 * ln r - 1 / 2 * v * ln s + lg (1 / 2 * v).

(** normal.cc:15-25 [incorporate]. *)
Definition nm_incorporate (n : normal) (x w : R) : normal :=
  let N' := nm_N n + w in
  if Req_EM_T N' 0 then Normal_ (nm_r n) (nm_v n) (nm_m n) (nm_s n) N' 0 0
  else
    let mean' := nm_mean n + w * (x - nm_mean n) / N' in
    Normal_ (nm_r n) (nm_v n) (nm_m n) (nm_s n) N' mean'
      (nm_var n + w * ((x - mean') * (x - nm_mean n) - nm_var n) / N').
Definition nm_unincorporate (n : normal) (x : R) : normal := nm_incorporate n x (-1).

(** normal.cc:27-36 [posterior_hypers]: the pair (m', s'). *)
Definition nm_posterior (n : normal) : R * R :=
  let mdelta := nm_r n * (nm_m n - nm_mean n) / (nm_r n + nm_N n) in
  let mprime := nm_mean n + mdelta in
  (mprime,
   nm_s n + nm_r n * (nm_m n - mprime) * (nm_m n + mprime)
   + nm_N n * (nm_var n - 2 * nm_mean n * mdelta - mdelta * mdelta)).

(** normal.cc:38-50 [logp]: the object is changed and changed back; the final
    formula reads [N] of the object after that. *)
Definition nm_logp (lg : R -> R) (n : normal) (x : R) : R * normal :=
  let sprime := (nm_posterior n).2 in
  let n1 := nm_incorporate n x 1 in
  let sprime2 := (nm_posterior n1).2 in
  let n2 := nm_unincorporate n1 x in
  (- (1 / 2) * ln (2 * PI)
   + logZ lg (nm_r n2 + nm_N n2 + 1) (nm_v n2 + nm_N n2 + 1) sprime2
   - logZ lg (nm_r n2 + nm_N n2) (nm_v n2 + nm_N n2) sprime, n2).

(** normal.cc:52-57 [logp_score]. *)
Definition nm_score (lg : R -> R) (n : normal) : R :=
  - (1 / 2) * nm_N n * ln (2 * PI)
  + logZ lg (nm_r n + nm_N n) (nm_v n + nm_N n) (nm_posterior n).2
  - logZ lg (nm_r n) (nm_v n) (nm_s n).

(** normal.hh:15-22 and normal.cc:77-92. *)
Definition nm_grid : list (R * R * R * R) :=
  [1 / 10; 1; 10] ≫= fun rt =>
  [1 / 2; 1; 2; 5] ≫= fun vt =>
  [-1; 0; 1] ≫= fun mt =>
  (fun st => (rt, vt, mt, st)) <$> [1 / 2; 1; 2].
Definition nm_set (n : normal) (h : R * R * R * R) : normal :=
  let '(r, v, m, s) := h in Normal_ r v m s (nm_N n) (nm_mean n) (nm_var n).

(** normal.cc:74-105 [transition_hyperparameters]. *)
Definition nm_transition (lg : R -> R) (n : normal) (r : rng) : outcome (normal * rng) :=
  let* (h, r') := grid_transition (fun h => nm_score lg (nm_set n h)) nm_grid r in
  Ok (nm_set n h, r').

(** normal.cc:59-72 [sample]: the standard library's gamma and normal samplers
    are an arbitrary function [smp] of their parameters (shape, scale, mean,
    [r + N]) and the generator. *)
Definition nm_sample (smp : R -> R -> R -> R -> rng -> R * rng) (n : normal) (r : rng) : R * rng :=
  let rn := nm_r n + nm_N n in
  let nu := nm_v n + nm_N n in
  let '(mprime, sprime) := nm_posterior n in
  smp (nu / 2) (2 / sprime) mprime rn r.

Definition nm_dist (lg : R -> R) (smp : R -> R -> R -> R -> rng -> R * rng) : Dist R := {|
  d_spec := unit;
  d_state := normal;
  d_new := fun _ r => (nm_new, r);
  d_N_zero := fun n => R_is_zero (nm_N n);
  d_N_pos := fun n => R_is_pos (nm_N n);
  d_inc := fun n x => Ok (nm_incorporate n x 1);
  d_uninc := fun n x => Ok (nm_unincorporate n x);
  d_logp := fun n x => Ok (Some (nm_logp lg n x).1);
  d_score := nm_score lg;
  d_sample := fun n r => let '(x, r') := nm_sample smp n r in Ok (x, n, r');
  d_resample := nm_transition lg;
  d_nearest := fun _ x => Ok x;
|}.

(** * ZeroMeanNormal: distributions/zero_mean_normal.{hh,cc} *)

(** zero_mean_normal.hh:14-19. *)
Record zmn := Zmn { zm_alpha : R; zm_beta : R; zm_N : R; zm_var : R }.
Definition zm_new : zmn := Zmn 1 1 0 0.

(** zero_mean_normal.cc:11-19 [log_t_distribution]. *)
Definition log_t_distribution (lg : R -> R) (x v variance : R) : R :=
  let v_shift := (v + 1) / 2 in
  lg v_shift - lg (v / 2) - 1 / 2 * ln (PI * v * variance)
  - v_shift * ln (1 + x * x / (variance * v)).

(** zero_mean_normal.cc:21-28 [incorporate]. *)
Definition zm_incorporate (n : zmn) (x w : R) : zmn :=
  let N' := zm_N n + w in
  if Req_EM_T N' 0 then Zmn (zm_alpha n) (zm_beta n) N' 0
  else Zmn (zm_alpha n) (zm_beta n) N' (zm_var n + w * (x * x - zm_var n) / N').
Definition zm_unincorporate (n : zmn) (x : R) : zmn := zm_incorporate n x (-1).

(** zero_mean_normal.cc:30-36 [logp]: degrees of freedom and squared scale of
    the Student-t density. *)
Definition zm_logp_t (n : zmn) : R * R :=
  let alpha_n := zm_alpha n + zm_N n / 2 in
  let beta_n := zm_beta n + 1 / 2 * zm_var n * zm_N n in
  (2 * alpha_n, beta_n / alpha_n).
Definition zm_logp (lg : R -> R) (n : zmn) (x : R) : R :=
  log_t_distribution lg x (zm_logp_t n).1 (zm_logp_t n).2.

(** zero_mean_normal.cc:38-47 [logp_score]. *)
Definition zm_score (lg : R -> R) (n : zmn) : R :=
  let alpha_n := zm_alpha n + zm_N n / 2 in
  zm_alpha n * ln (zm_beta n) - lg (zm_alpha n) - zm_N n / 2 * ln (2 * PI) + lg alpha_n
  - alpha_n * ln (zm_beta n + 1 / 2 * zm_var n * zm_N n).

(** zero_mean_normal.cc:49-55 [sample]: degrees of freedom and squared scale of
    the Student-t that is sampled; [smp nu] is the library's standard t sampler. *)
Definition zm_sample_t (n : zmn) : R * R :=
  let alpha_n := zm_alpha n + zm_N n / 2 in
  let beta_n := zm_beta n + zm_var n * zm_N n in
  (2 * alpha_n, beta_n / alpha_n).
Definition zm_sample (smp : R -> rng -> R * rng) (n : zmn) (r : rng) : R * rng :=
  let '(t, r') := smp (zm_sample_t n).1 r in
  (t * sqrt (zm_sample_t n).2, r').

(** zero_mean_normal.cc:57-60, :65-75. *)
Definition zm_grid : list (R * R) := alpha_grid ≫= fun a => (fun b => (a, b)) <$> alpha_grid.
Definition zm_set (n : zmn) (h : R * R) : zmn := Zmn h.1 h.2 (zm_N n) (zm_var n).

(** zero_mean_normal.cc:62-85 [transition_hyperparameters]. *)
Definition zm_transition (lg : R -> R) (n : zmn) (r : rng) : outcome (zmn * rng) :=
  let* (h, r') := grid_transition (fun h => zm_score lg (zm_set n h)) zm_grid r in
  Ok (zm_set n h, r').

Definition zm_dist (lg : R -> R) (smp : R -> rng -> R * rng) : Dist R := {|
  d_spec := unit;
  d_state := zmn;
  d_new := fun _ r => (zm_new, r);
  d_N_zero := fun n => R_is_zero (zm_N n);
  d_N_pos := fun n => R_is_pos (zm_N n);
  d_inc := fun n x => Ok (zm_incorporate n x 1);
  d_uninc := fun n x => Ok (zm_unincorporate n x);
  d_logp := fun n x => Ok (Some (zm_logp lg n x));
  d_score := zm_score lg;
  d_sample := fun n r => let '(x, r') := zm_sample smp n r in Ok (x, n, r');
  d_resample := zm_transition lg;
  d_nearest := fun _ x => Ok x;
|}.

(** * Bigram: distributions/bigram.{hh,cc} *)

(** A C++ [char] (signed) as an integer. *)
Definition char_val (c : ascii) : Z :=
  let n := Z.of_N (N_of_ascii c) in if bool_decide (n < 128)%Z then n else (n - 256)%Z.
Definition char_of (z : Z) : ascii := ascii_of_N (Z.to_N (z mod 256)).

(** bigram.hh:20-25, base.hh:13. *)
Record bigram := Bigram_ {
  bg_alpha : R; bg_max_length : nat; bg_min_char : Z; bg_max_char : Z;
  bg_dists : list dc; bg_N : R }.
Definition bg_num_chars (b : bigram) : nat := Z.to_nat (bg_max_char b - bg_min_char b + 1).

(** bigram.hh:27-37 constructor. *)
Definition bg_new (max_length : nat) (min_char max_char : Z) : bigram :=
  let total := S (Z.to_nat (max_char - min_char + 1)) in
  Bigram_ 1 max_length min_char max_char (replicate total (dc_new total)) 0.

(** bigram.cc:11-18 [char_to_index] with [assert_valid_char]. *)
Definition bg_valid_char (b : bigram) (c : ascii) : bool :=
  bool_decide (bg_min_char b <= char_val c <= bg_max_char b)%Z.
Definition bg_char_to_index (b : bigram) (c : ascii) : outcome nat :=
  let* _ := assert_ (bg_valid_char b c) in
  Ok (Z.to_nat (char_val c - bg_min_char b)).

(** bigram.cc:20-24 [index_to_char]. *)
Definition bg_index_to_char (b : bigram) (i : nat) : outcome ascii :=
  let c := char_of (Z.of_nat i + bg_min_char b) in
  let* _ := assert_ (bg_valid_char b c) in
  Ok c.

(** bigram.cc:26-35 [string_to_indices]. *)
Fixpoint bg_chars_to_indices (b : bigram) (cs : list ascii) : outcome (list nat) :=
  match cs with
  | [] => Ok []
  | c :: cs' =>
    let* i := bg_char_to_index b c in
    let* l := bg_chars_to_indices b cs' in
    Ok (i :: l)
  end.
Definition bg_string_to_indices (b : bigram) (x : string) : outcome (list nat) :=
  let* l := bg_chars_to_indices b (String.list_ascii_of_string x) in
  Ok (bg_num_chars b :: l ++ [bg_num_chars b]).

(** The consecutive pairs visited by the loops of bigram.cc:44, :53, :59. *)
Fixpoint pairs_of (l : list nat) : list (nat * nat) :=
  match l with
  | i :: (j :: _) as l' => (i, j) :: pairs_of l'
  | _ => []
  end.

(** [transition_dists[i].incorporate(j, w)]. *)
Definition bg_inc_pair (w : R) (ds : list dc) (p : nat * nat) : outcome (list dc) :=
  let* d := idx_ (ds !! p.1) in
  let* d' := dc_incorporate d (Z.of_nat p.2) w in
  Ok (<[p.1 := d']> ds).
Definition bg_set_dists (b : bigram) (ds : list dc) (n : R) : bigram :=
  Bigram_ (bg_alpha b) (bg_max_length b) (bg_min_char b) (bg_max_char b) ds n.

(** bigram.cc:37-48 [incorporate]. *)
Definition bg_incorporate (b : bigram) (x : string) (w : R) : outcome bigram :=
  if bool_decide (0 < bg_max_length b)%nat && bool_decide (bg_max_length b < String.length x)%nat
  then Exits
  else
    let* inds := bg_string_to_indices b x in
    let* ds := foldM (bg_inc_pair w) (bg_dists b) (pairs_of inds) in
    Ok (bg_set_dists b ds (bg_N b + w)).
Definition bg_unincorporate (b : bigram) (x : string) : outcome bigram := bg_incorporate b x (-1).

(** bigram.cc:50-63 [logp]: incorporates each transition while scoring and takes
    them out again; the resulting object is returned too. *)
Definition bg_logp (b : bigram) (x : string) : outcome (R * bigram) :=
  let* inds := bg_string_to_indices b x in
  let* (total, ds) := foldM (fun '(total, ds) p =>
      let* d := idx_ ((ds : list dc) !! p.1) in
      let* l := dc_logp d (Z.of_nat p.2) in
      let* ds' := bg_inc_pair 1 ds p in
      Ok (total + l, ds')) (0, bg_dists b) (pairs_of inds) in
  let* ds := foldM (bg_inc_pair (-1)) ds (pairs_of inds) in
  Ok (total, bg_set_dists b ds (bg_N b)).

(** bigram.cc:65-71 [logp_score]. *)
Definition bg_score (lg : R -> R) (b : bigram) : R :=
  foldl (fun acc d => acc + dc_score lg d) 0 (bg_dists b).

(** bigram.cc:89-97: the loop of [sample]; [acc] is the string so far, reversed.
    [fuel] bounds the number of iterations (it never runs out when there is a
    maximum length). *)
Fixpoint bg_sample_loop (b : bigram) (fuel : nat) (cur : nat) (acc : list ascii) (ds : list dc) (r : rng)
  : outcome (list ascii * list dc * rng) :=
  if bool_decide (cur = bg_num_chars b) then Ok (rev acc, ds, r)
  else
    match fuel with
    | O => OutOfFuel
    | S fuel' =>
      let* c := bg_index_to_char b cur in
      let acc := c :: acc in
      if bool_decide (length acc = bg_max_length b) then Ok (rev acc, ds, r)
      else
        let* d := idx_ (ds !! cur) in
        let '(next, r') := dc_sample d r in
        let* ds' := bg_inc_pair 1 ds (cur, Z.to_nat next) in
        bg_sample_loop b fuel' (Z.to_nat next) acc ds' r'
    end.

(** bigram.cc:73-101 [sample]. *)
Definition bg_sample (b : bigram) (r : rng) : outcome (string * bigram * rng) :=
  let cur := bg_num_chars b in
  let* d := idx_ (bg_dists b !! cur) in
  let '(next, r1) := dc_sample d r in
  let* ds := bg_inc_pair 1 (bg_dists b) (cur, Z.to_nat next) in
  let fuel := match bg_max_length b with O => S (length r) | n => n end in
  let* (cs, ds, r') := bg_sample_loop b fuel (Z.to_nat next) [] ds r1 in
  let s := String.string_of_list_ascii cs in
  let* b' := bg_unincorporate (bg_set_dists b ds (bg_N b + 1)) s in
  Ok (s, b', r').

(** bigram.cc:103-108 [set_alpha]. *)
Definition bg_set_alpha (b : bigram) (a : R) : bigram :=
  Bigram_ a (bg_max_length b) (bg_min_char b) (bg_max_char b)
    ((fun d => dc_set d a) <$> bg_dists b) (bg_N b).

(** bigram.cc:110-129 [transition_hyperparameters]. *)
Definition bg_transition (lg : R -> R) (b : bigram) (r : rng) : outcome (bigram * rng) :=
  let* (a, r') := grid_transition (fun a => bg_score lg (bg_set_alpha b a)) alpha_grid r in
  Ok (bg_set_alpha b a, r').

(** [Bigram::nearest] is the default base.hh:57-59; string_nat.hh:18-26 overrides
    it by keeping the digits ([isdigit] of a negative char is not modelled as
    undefined). *)
Definition is_digit (c : ascii) : bool := bool_decide (48 <= char_val c <= 57)%Z.
Definition string_nat_nearest (x : string) : string :=
  String.string_of_list_ascii (List.filter is_digit (String.list_ascii_of_string x)).

Definition bg_dist_with (nearest : string -> string) (lg : R -> R)
    (max_length : nat) (min_char max_char : Z) : Dist string := {|
  d_spec := unit;
  d_state := bigram;
  d_new := fun _ r => (bg_new max_length min_char max_char, r);
  d_N_zero := fun b => R_is_zero (bg_N b);
  d_N_pos := fun b => R_is_pos (bg_N b);
  d_inc := fun b x => bg_incorporate b x 1;
  d_uninc := bg_unincorporate;
  d_logp := fun b x => let* (l, _) := bg_logp b x in Ok (Some l);
  d_score := bg_score lg;
  d_sample := bg_sample;
  d_resample := bg_transition lg;
  d_nearest := fun _ x => Ok (nearest x);
|}.
(** bigram.hh:27 default characters ' ' and '~'; string_nat.hh:16. *)
Definition bg_dist (lg : R -> R) (max_length : nat) : Dist string :=
  bg_dist_with (fun x => x) lg max_length 32 126.
Definition string_nat_dist (lg : R -> R) (max_length : nat) : Dist string :=
  bg_dist_with string_nat_nearest lg max_length 48 57.
