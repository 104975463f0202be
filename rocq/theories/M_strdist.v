(** Distributions over strings and the construction of distributions:
    distributions/stringcat.{hh,cc}, distributions/adapter.hh and [get_prior] of
    distributions/get_distribution.cc and emissions/get_emission.cc. *)
From Coq Require Import String Ascii.
From stdpp Require Import gmap strings list.
From Coq Require Import ZArith Reals.
From Verif Require Import M_base M_math M_dist M_distributions M_text M_io M_clusters M_schema M_align.
Local Open Scope nat_scope.

(** * StringCat *)

(** stringcat.hh:13-19 and base.hh:13. *)
Record stringcat := SC { sc_strings : list text; sc_dc : dc; sc_N : R }.
Definition sc_new (vs : list text) : stringcat := SC vs (dc_new (length vs)) 0%R.

(** stringcat.cc:11-18 [string_to_index]: [std::find], the first position. *)
Fixpoint find_index (x : text) (l : list text) : option nat :=
  match l with
  | [] => None
  | y :: l => if teqb y x then Some 0 else S <$> find_index x l
  end.
Definition string_to_index (s : stringcat) (x : text) : outcome Z :=
  match find_index x (sc_strings s) with
  | Some i => Ok (Z.of_nat i)
  | None => Exits
  end.

(** stringcat.cc:20-23 [incorporate]. *)
Definition sc_incorporate (s : stringcat) (x : text) (w : R) : outcome stringcat :=
  let* i := string_to_index s x in
  let* d := dc_incorporate (sc_dc s) i w in
  Ok (SC (sc_strings s) d (sc_N s + w)%R).
Definition sc_unincorporate (s : stringcat) (x : text) : outcome stringcat := sc_incorporate s x (-1)%R.

(** stringcat.cc:25-27 [logp], :29-31 [logp_score]. *)
Definition sc_logp (s : stringcat) (x : text) : outcome R :=
  let* i := string_to_index s x in dc_logp (sc_dc s) i.
Definition sc_score (lg : R -> R) (s : stringcat) : R := dc_score lg (sc_dc s).

(** stringcat.cc:33-35 [sample]. *)
Definition sc_sample (s : stringcat) (r : rng) : outcome (text * rng) :=
  let '(i, r') := dc_sample (sc_dc s) r in
  let* x := idx_ (sc_strings s !! Z.to_nat i) in
  Ok (x, r').

(** stringcat.cc:37-39 [transition_hyperparameters]. *)
Definition sc_transition (lg : R -> R) (s : stringcat) (r : rng) : outcome (stringcat * rng) :=
  let* (d, r') := dc_transition lg (sc_dc s) r in
  Ok (SC (sc_strings s) d (sc_N s), r').

(** A StringCat as the distribution of a block. *)
Definition sc_dist (lg : R -> R) (pick : list alignment -> nat) (strings : list text) : Dist text := {|
  d_spec := unit;
  d_state := stringcat;
  d_new := fun _ r => (sc_new strings, r);
  d_N_zero := fun s => R_is_zero (sc_N s);
  d_N_pos := fun s => R_is_pos (sc_N s);
  d_inc := fun s x => sc_incorporate s x 1;
  d_uninc := sc_unincorporate;
  d_logp := fun s x => let* l := sc_logp s x in Ok (Some l);
  d_score := sc_score lg;
  d_sample := fun s r => let* (x, r') := sc_sample s r in Ok (x, s, r');
  d_resample := sc_transition lg;
  d_nearest := fun s x => stringcat_nearest pick (sc_strings s) x;
|}.

(** * DistributionAdapter *)

(** adapter.hh:24-28 [from_string] for [int].  Without a character that is not white space the
    extraction stops before it assigns, and the variable is returned uninitialised: undefined
    behaviour.  When no number can be read it assigns 0, and the nearest limit when the number
    is out of range.  What follows the number is ignored. *)
Definition clamp_int (z : Z) : Z := Z.max (- 2 ^ 31) (Z.min z (2 ^ 31 - 1)).
Definition int_from_string (x : text) : outcome Z :=
  match snd (span isspace x) with
  | [] => UB
  | _ => match scan_int x with Some (z, _) => Ok (clamp_int z) | None => Ok 0%Z end
  end.
(** adapter.hh:30-34 [to_string] for [int]. *)
Definition int_to_string (z : Z) : text := print_int z.

Section adapter.
(** [parse] and [show] are from_string and to_string of the type [S] (for [double] they are left
    open). *)
Context {S : Type} (parse : text -> outcome S) (show : S -> text) (D : Dist S).

(** adapter.hh:16-22 and base.hh:13. *)
Record adapter := AD { ad_d : d_state D; ad_N : R }.

(** adapter.hh:36-40 [incorporate], with weight 1, and base.hh:20 [unincorporate], with weight -1. *)
Definition ad_inc (a : adapter) (x : text) : outcome adapter :=
  let* s := parse x in
  let* d := d_inc D (ad_d a) s in
  Ok (AD d (ad_N a + 1)%R).
Definition ad_uninc (a : adapter) (x : text) : outcome adapter :=
  let* s := parse x in
  let* d := d_uninc D (ad_d a) s in
  Ok (AD d (ad_N a + -1)%R).

(** adapter.hh:42-45 [logp], :47 [logp_score], :49-52 [sample], :54-59 the transitions. *)
Definition ad_logp (a : adapter) (x : text) : outcome (option R) :=
  let* s := parse x in d_logp D (ad_d a) s.
Definition ad_score (a : adapter) : R := d_score D (ad_d a).
Definition ad_sample (a : adapter) (r : rng) : outcome (text * adapter * rng) :=
  let* (sd, r') := d_sample D (ad_d a) r in
  let '(s, d) := sd in
  Ok (show s, AD d (ad_N a), r').
Definition ad_resample (a : adapter) (r : rng) : outcome (adapter * rng) :=
  let* (d, r') := d_resample D (ad_d a) r in Ok (AD d (ad_N a), r').

(** [nearest] is not overridden: base.hh:57, the identity. *)
Definition ad_dist : Dist text := {|
  d_spec := d_spec D;
  d_state := adapter;
  d_new := fun sp r => let '(d, r') := d_new D sp r in (AD d 0%R, r');
  d_N_zero := fun a => R_is_zero (ad_N a);
  d_N_pos := fun a => R_is_pos (ad_N a);
  d_inc := ad_inc;
  d_uninc := ad_uninc;
  d_logp := ad_logp;
  d_score := ad_score;
  d_sample := ad_sample;
  d_resample := ad_resample;
  d_nearest := fun _ x => Ok x;
|}.
End adapter.
Global Arguments AD {S D} _ _.
Global Arguments ad_d {S D} _.
Global Arguments ad_N {S D} _.

(** * get_prior *)

(** The objects [get_prior] makes. *)
Inductive prior :=
| PrBernoulli | PrBigram (max_length : Z) | PrCategorical (k : Z) | PrNormal | PrSkellam
| PrStringCat (strings : list text) | PrStringNat (max_length : Z) | PrStringNormal | PrStringSkellam.
(** The alternative of [DistributionVariant] (get_distribution.hh:43-47) an object is returned in. *)
Definition prior_type (p : prior) : obs_type :=
  match p with
  | PrBernoulli => BoolType
  | PrCategorical _ | PrSkellam => IntType
  | PrNormal => DoubleType
  | PrBigram _ | PrStringCat _ | PrStringNat _ | PrStringNormal | PrStringSkellam => StringType
  end.

(** [std::stoul]: throws without a number and when its size is 2^64 or more; a minus sign wraps. *)
Definition stoul (l : text) : outcome Z :=
  match scan_int l with
  | Some (z, _) => if bool_decide (Z.abs z < 2 ^ 64)%Z then Ok (z mod 2 ^ 64)%Z else Throws
  | None => Throws
  end.

(** [boost::split] at one character: n separators make n + 1 strings, possibly empty. *)
Fixpoint split_on (c : ascii) (l : text) : list text :=
  match l with
  | [] => [[]]
  | d :: l' =>
    if ceqb d c then [] :: split_on c l'
    else match split_on c l' with
         | [] => [[d]]
         | w :: ws => (d :: w) :: ws
         end
  end.

(** get_distribution.cc:78-84, :109-115: the longest string. *)
Definition max_length_of (args : gmap string string) (dflt : Z) : outcome Z :=
  match args !! "maxlength"%string with
  | Some v => stoul (txt v)
  | None => Ok dflt
  end.

(** get_distribution.cc:73-128 [get_prior].  A negative number of categories makes the vector of
    counts (dirichlet_categorical.hh:18) throw. *)
Definition get_prior (sp : dist_spec) : outcome prior :=
  match ds_dist sp with
  | DBernoulli => Ok PrBernoulli
  | DBigram => let* n := max_length_of (ds_args sp) 80 in Ok (PrBigram n)
  | DCategorical =>
    let* _ := assert_ (bool_decide (size (ds_args sp) = 1)) in
    let* v := at_ (ds_args sp !! "k"%string) in
    let* k := stoi (txt v) in
    if bool_decide (0 <= k)%Z then Ok (PrCategorical k) else Throws
  | DNormal => Ok PrNormal
  | DSkellam => Ok PrSkellam
  | DStringcat =>
    let* delim :=
      match ds_args sp !! "delim"%string with
      | Some v => match txt v with [c] => Ok c | _ => AssertFail end
      | None => Ok " "%char
      end in
    let* v := at_ (ds_args sp !! "strings"%string) in
    Ok (PrStringCat (split_on delim (txt v)))
  | DStringNat => let* n := max_length_of (ds_args sp) 20 in Ok (PrStringNat n)
  | DStringNormal => Ok PrStringNormal
  | DStringSkellam => Ok PrStringSkellam
  end.

(** The objects the other [get_prior] makes, and the alternative of [EmissionVariant]. *)
Inductive prior_emission :=
| PeBigram | PeGaussian | PeSimple | PeSometimesBitflip | PeSometimesCategorical (k : Z) | PeSometimesGaussian.
Definition emission_type (p : prior_emission) : obs_type :=
  match p with
  | PeBigram | PeSimple => StringType
  | PeGaussian | PeSometimesGaussian => DoubleType
  | PeSometimesBitflip => BoolType
  | PeSometimesCategorical _ => IntType
  end.
(** emissions/get_emission.cc:46-67 [get_prior]. *)
Definition get_emission (sp : emis_spec) : outcome prior_emission :=
  match es_emis sp with
  | EBigramString => Ok PeBigram
  | EGaussian => Ok PeGaussian
  | ESimpleString => Ok PeSimple
  | ESometimesBitflip => Ok PeSometimesBitflip
  | ESometimesCategorical =>
    let* v := at_ (es_args sp !! "k"%string) in
    let* k := stoi (txt v) in
    if bool_decide (0 <= k)%Z then Ok (PeSometimesCategorical k) else Throws
  | ESometimesGaussian => Ok PeSometimesGaussian
  end.
