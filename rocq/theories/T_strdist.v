(** Properties C56 (numbers written as strings), C57 (StringCat) and C58 (building
    distributions from schema text). *)
From Coq Require Import String Ascii.
From stdpp Require Import gmap list strings.
From Coq Require Import ZArith Reals Lra Lia.
From Verif Require Import M_base M_math M_dist M_distributions M_nonconj M_text M_io M_clusters M_schema M_align M_strdist
  S_math S_crp S_dist S_relation S_nonconj P_base P_math P_dist P_dirichlet P_nonconj P_clusters P_schema P_strdist T_dist T_nonconj.
Local Open Scope R_scope.

(** * C56: an adapted distribution is the distribution of the numbers written *)
(** After every history the adapter has read each text it holds, and its inner object has the
    history of the numbers read; scores and probabilities are those of the inner object. *)
Theorem C56_history {S} parse show (D : Dist S) a l : dist_history (ad_dist parse show D) a l ->
  exists vs, Forall2 (fun x v => parse x = Ok v) l vs /\ dist_history D (ad_d a) vs /\ ad_N a = INR (length l) /\
    ad_score D a = d_score D (ad_d a) /\
    (forall x v, parse x = Ok v -> ad_logp parse D a x = d_logp D (ad_d a) v).
Proof.
  intros Hh. destruct (history_values parse show D a l Hh) as (Hf & Hd & HN). exists (values parse l). split_and!; try done.
  - clear Hd HN Hh. induction Hf as [|x l [v E] Hl IH]; [constructor|]. rewrite (values_cons _ _ _ _ E). by constructor.
  - intros x v E. unfold ad_logp. by rewrite E.
Qed.

(** Incorporating a text is incorporating the number, and unincorporating it takes it away. *)
Theorem C56_incorporate {S} parse show (D : Dist S) (a : adapter D) x v d d' : parse x = Ok v ->
  d_inc D (ad_d a) v = Ok d -> d_uninc D d v = Ok d' ->
  d_inc (ad_dist parse show D) a x = Ok (AD d (ad_N a + 1)) /\
  d_uninc (ad_dist parse show D) (AD d (ad_N a + 1)) x = Ok (AD d' (ad_N a)).
Proof.
  intros E Ei Eu. cbn [d_inc d_uninc ad_dist]. unfold ad_inc, ad_uninc. rewrite E. cbn [obind ad_d ad_N]. rewrite Ei, Eu. cbn [obind].
  split; [done|]. do 2 f_equal. lra.
Qed.

(** Integers that fit an int are read back as written, whatever follows that is not a digit. *)
Theorem C56_int_round_trip z rest : (- 2 ^ 31 <= z < 2 ^ 31)%Z ->
  match rest with [] => True | c :: _ => isdigit c = false end ->
  int_from_string (int_to_string z ++ rest)%list = Ok z.
Proof.
  intros Hz Hr. unfold int_from_string, int_to_string. rewrite print_int_scan by done.
  destruct (print_int_word z) as [Hw Hne]. destruct (print_int z) as [|c w] eqn:E; [done|]. apply Forall_cons in Hw as [Hc _].
  cbn [app span]. rewrite Hc. cbn [snd]. f_equal. unfold clamp_int. lia.
Qed.
(** What a Skellam adapter samples, it reads back as the value sampled. *)
Theorem C56_sample_round_trip bessel gauss pois unif steps a r x a' r' z d :
  d_sample (sk_dist bessel gauss pois unif steps) (ad_d a) r = Ok (z, d, r') -> (- 2 ^ 31 <= z < 2 ^ 31)%Z ->
  ad_sample int_to_string (sk_dist bessel gauss pois unif steps) a r = Ok (x, a', r') ->
  int_from_string x = Ok z /\ ad_N a' = ad_N a /\ ad_d a' = d.
Proof.
  intros Ed Hz Es. unfold ad_sample in Es. rewrite Ed in Es. cbn [obind] in Es. injection Es as <- <-. split; [|done].
  pose proof (C56_int_round_trip z [] Hz Coq.Init.Logic.I) as E. by rewrite app_nil_r in E.
Qed.
(** Adapters of lawful distributions are lawful, so the theorems about relations hold with them. *)
Definition string_skellam_lawful bessel gauss pois unif steps :
  lawful (ad_dist int_from_string int_to_string (sk_dist bessel gauss pois unif steps)) :=
  ad_lawful int_from_string int_to_string _ (sk_lawful bessel gauss pois unif steps).
Theorem C56_string_skellam bessel gauss pois unif steps a l :
  dist_history (ad_dist int_from_string int_to_string (sk_dist bessel gauss pois unif steps)) a l ->
  exists vs, Forall2 (fun x v => int_from_string x = Ok v) l vs /\
    (forall z, default 0 (nc_seen (ad_d a) !! z) = INR (occurrences z vs)) /\ ad_N a = INR (length l) /\
    ad_score _ a = Rsum (sk_logp bessel (nc_latents (ad_d a)) <$> vs).
Proof.
  intros Hh. destruct (C56_history _ _ _ _ _ Hh) as (vs & Hf & Hd & HN & Hs & _). exists vs.
  destruct (C43_state _ _ _ _ _ _ _ Hd) as (Hc & _). destruct (C43_score _ _ _ _ _ _ _ Hd) as (Hsc & _). split_and!; try done.
Qed.
(** Texts that are no numbers are not turned down: they count as 0. *)
Theorem C56_text_is_zero x : Exists (fun c => isspace c = false) x -> scan_int x = None ->
  int_from_string x = Ok 0%Z.
Proof.
  intros Hx Hs. unfold int_from_string. rewrite Hs. destruct (snd (span isspace x)) as [|c l] eqn:E; [|done]. exfalso.
  induction x as [|d x IH]; [by apply Exists_nil in Hx|]. clear IH. revert Hx E. clear Hs. intros Hx.
  assert (forall x, Exists (fun c => isspace c = false) x -> snd (span isspace x) <> []) as Hsp.
  { clear. induction 1 as [c l Hc|c l Hl IH]; simpl; [by rewrite Hc|]. destruct (isspace c); [|done]. destruct (span isspace l). done. }
  by apply Hsp.
Qed.
Theorem C56_rejects_refuted : exists x y, x <> y /\ int_from_string x = int_from_string y /\
  int_from_string x = Ok 0%Z /\ int_from_string (txt "12 Main St") = Ok 12%Z.
Proof. exists (txt "n/a"), (txt "0"). by split_and!. Qed.
(** A blank text is read as an uninitialised variable. *)
Theorem C56_blank_refuted x : Forall (fun c => isspace c = true) x -> int_from_string x = UB.
Proof.
  intros Hx. unfold int_from_string.
  assert (snd (span isspace x) = []) as ->; [|done].
  induction Hx as [|c l Hc Hl IH]; [done|]. simpl. rewrite Hc. by destruct (span isspace l).
Qed.
Print Assumptions C56_history.
Print Assumptions C56_incorporate.
Print Assumptions C56_int_round_trip.
Print Assumptions C56_sample_round_trip.
Print Assumptions C56_string_skellam.
Print Assumptions C56_text_is_zero.
Print Assumptions C56_rejects_refuted.
Print Assumptions C56_blank_refuted.

Definition C56_dist := ad_dist int_from_string int_to_string (sk_dist flat_bessel (fun _ _ => next_draw) (fun _ r => (3%Z, r)) half_draw 0).
Example C56_met : exists a a', dist_history C56_dist a [txt "-2"; txt "7"] /\ dist_history C56_dist a' [txt "7"].
Proof.
  pose proof (hist_new C56_dist tt []) as H0.
  assert (exists s1, d_inc C56_dist (d_new C56_dist tt []).1 (txt "7") = Ok s1) as [s1 E1]; [eexists; by cbn|].
  assert (exists s2, d_inc C56_dist s1 (txt "-2") = Ok s2) as [s2 E2]; [eexists; by cbn|].
  exists s2, s1. split; [|exact (hist_inc _ _ _ _ _ H0 E1)]. exact (hist_inc _ _ _ _ _ (hist_inc _ _ _ _ _ H0 E1) E2).
Qed.

(** * C57: StringCat *)
Section c57.
Context (lg : R -> R) (pick : list alignment -> nat) (strings : list text).
Notation history := (dist_history (sc_dist lg pick strings)).

Theorem C57_state s l : history s l ->
  sc_strings s = strings /\ Forall (fun x => x ∈ strings) l /\ sc_N s = INR (length l) /\
  0 < dc_alpha (sc_dc s) /\
  (NoDup strings -> forall i x, strings !! i = Some x -> dc_counts (sc_dc s) !! i = Some (INR (occurrences x l))).
Proof.
  intros Hh. destruct (history_lawful _ (sc_lawful lg pick strings) _ _ Hh) as [Ha [[a Hp] ->]]. cbn [law_of sc_lawful law_adm] in *.
  split_and!; try done. intros Hnd i x Hx. cbn [sc_of sc_dc dc_of dc_counts proj1_sig].
  rewrite count_list_lookup by (by eapply lookup_lt_Some). do 2 f_equal.
  rewrite <- (occurrences_index strings x l) by (done || by eapply elem_of_list_lookup_2). f_equal.
  unfold index_in. by rewrite (find_index_NoDup _ _ _ Hnd Hx).
Qed.
(** Strings of the list are accepted, and undone; the program ends on any other. *)
Theorem C57_accepts s l x : history s l ->
  if decide (x ∈ strings) then exists s', sc_incorporate s x 1 = Ok s' /\ sc_unincorporate s' x = Ok s
  else sc_incorporate s x 1 = Exits /\ sc_logp s x = Exits.
Proof.
  intros Hh. destruct (history_lawful _ (sc_lawful lg pick strings) _ _ Hh) as [Ha [h ->]]. cbn [law_of law_adm sc_lawful] in *. case_decide as Hx.
  - eexists. split; [apply (law_inc _ (sc_lawful lg pick strings) h l x); [done|]; by split|].
    apply (law_uninc _ (sc_lawful lg pick strings) h l x). by constructor.
  - unfold sc_incorporate, sc_logp. rewrite (sc_index strings) by done. by rewrite decide_False.
Qed.
Theorem C57_predictive s l x : history s l -> x ∈ strings ->
  exists p, sc_logp s x = Ok p /\
    exp p = (dc_alpha (sc_dc s) + INR (occurrences x l)) /
            (INR (length l) + dc_alpha (sc_dc s) * INR (length strings)).
Proof.
  intros Hh Hx. destruct (history_lawful _ (sc_lawful lg pick strings) _ _ Hh) as [Ha [[a Hp] ->]]. cbn [law_of law_adm sc_lawful proj1_sig] in *.
  unfold sc_logp. rewrite (sc_index strings) by done. rewrite decide_True by done. cbn [obind sc_of sc_dc].
  rewrite dc_logp_of by (by apply index_in_cats). eexists. split; [done|].
  rewrite occurrences_index by done. rewrite fmap_length. cbn [dc_of dc_alpha].
  assert (0 < INR (length strings)) as Hk. { apply lt_0_INR. destruct strings; [by apply elem_of_nil in Hx|simpl; lia]. }
  pose proof (pos_INR (length l)). pose proof (pos_INR (occurrences x l)). pose proof (Rmult_lt_0_compat _ _ Hp Hk).
  unfold Rminus. rewrite exp_plus, exp_Ropp, !exp_ln by lra. done.
Qed.
Theorem C57_sums_to_one s l : history s l -> NoDup strings -> strings <> [] ->
  Rsum ((fun x => match sc_logp s x with Ok p => exp p | _ => 0 end) <$> strings) = 1.
Proof.
  intros Hh Hnd Hne. destruct (history_lawful _ (sc_lawful lg pick strings) _ _ Hh) as [Ha [[a Hp] ->]]. cbn [law_of law_adm sc_lawful proj1_sig] in *.
  rewrite <- (dc_predictive (length strings) a (index_in strings <$> l)).
  - f_equal. apply list_eq. intros i. rewrite !list_lookup_fmap. destruct (decide (i < length strings)%nat) as [Hi|Hi].
    + destruct (lookup_lt_is_Some_2 _ _ Hi) as [x Hx]. rewrite Hx, lookup_seq_lt by done. cbn [fmap option_fmap option_map].
      f_equal. unfold sc_logp. rewrite (sc_index strings) by done. rewrite decide_True by (by eapply elem_of_list_lookup_2). cbn [obind sc_of sc_dc].
      unfold index_in at 2. rewrite (find_index_NoDup _ _ _ Hnd Hx). done.
    + rewrite !lookup_ge_None_2; [done| |lia]. rewrite seq_length. lia.
  - destruct strings; [done|simpl; lia].
  - done.
  - apply Forall_fmap. eapply Forall_impl; [exact Ha|]. intros x Hx. by apply index_in_cats.
Qed.
Theorem C57_logp_is_score_increase s l x p s' : is_lgamma lg -> history s l ->
  sc_logp s x = Ok p -> sc_incorporate s x 1 = Ok s' -> sc_score lg s' - sc_score lg s = p.
Proof.
  intros Hlg Hh. destruct (history_lawful _ (sc_lawful lg pick strings) _ _ Hh) as [Ha [[a Hp] ->]]. cbn [law_of law_adm sc_lawful proj1_sig] in *.
  unfold sc_logp, sc_incorporate. rewrite (sc_index strings) by done. destruct (decide (x ∈ strings)) as [Hx|Hx]; [|done].
  cbn [obind sc_of sc_dc sc_strings sc_N]. intros El Ei. apply obind_Ok in Ei as (d & Ed & [= <-]).
  rewrite dc_inc_of in Ed by (by apply index_in_cats). injection Ed as <-. unfold sc_score. cbn [sc_dc]. by apply dc_chain.
Qed.
(** Sampling returns a string of the list. *)
Theorem C57_sample s l r : history s l -> strings <> [] ->
  exists i x r', choose_index (length strings) r = (i, r') /\ sc_sample s r = Ok (x, r') /\ strings !! i = Some x.
Proof.
  intros Hh Hne. destruct (history_lawful _ (sc_lawful lg pick strings) _ _ Hh) as [Ha [[a Hp] ->]]. cbn [law_of law_adm sc_lawful proj1_sig] in *.
  unfold sc_sample, dc_sample, dc_sample_weights. cbn [sc_of sc_dc dc_of dc_counts sc_strings]. rewrite fmap_length, count_list_length.
  destruct (choose_index (length strings) r) as [i r'] eqn:E.
  assert (i < length strings)%nat as Hi. { eapply choose_index_lt; [exact E|]. destruct strings; [done|simpl; lia]. }
  destruct (lookup_lt_is_Some_2 _ _ Hi) as [x Hx]. exists i, x, r'. split; [done|]. rewrite Nat2Z.id, Hx. done.
Qed.
(** Each string of the list is drawn with the weight of its predictive probability. *)
Theorem C57_sample_weights s l i x p : history s l -> NoDup strings -> strings !! i = Some x -> sc_logp s x = Ok p ->
  dc_sample_weights (sc_dc s) !! i = Some (exp p * (INR (length l) + dc_alpha (sc_dc s) * INR (length strings))).
Proof.
  intros Hh Hnd Hi El. destruct (C57_state s l Hh) as (_ & _ & _ & Hpos & Hc). specialize (Hc Hnd i x Hi).
  destruct (C57_predictive s l x Hh) as (p' & E & He); [by eapply elem_of_list_lookup_2|]. rewrite El in E. injection E as <-.
  unfold dc_sample_weights. rewrite list_lookup_fmap, Hc. cbn [fmap option_fmap option_map]. f_equal. rewrite He.
  rewrite INR_IZR_INZ, to_int_IZR.
  assert (0 < INR (length strings)) as Hk. { apply lt_0_INR. apply lookup_lt_Some in Hi. lia. }
  pose proof (Rmult_lt_0_compat _ _ Hpos Hk). pose proof (pos_INR (length l)). field. lra.
Qed.
End c57.
(** With a string listed twice the probabilities of the strings no longer sum to 1. *)
Theorem C57_sums_to_one_refuted lg pick : exists strings s p, dist_history (sc_dist lg pick strings) s [] /\
  (forall x, x ∈ strings -> x = txt "a") /\ sc_logp s (txt "a") = Ok p /\ exp p = 1 / 2.
Proof.
  exists [txt "a"; txt "a"], (sc_new [txt "a"; txt "a"]).
  pose proof (hist_new (sc_dist lg pick [txt "a"; txt "a"]) tt []) as Hh. cbn [d_new sc_dist fst] in Hh.
  destruct (C57_predictive lg pick _ _ _ (txt "a") Hh) as (p & E & He); [by left|]. exists p. split_and!; try done.
  - intros x. rewrite !elem_of_cons, elem_of_nil. naive_solver.
  - rewrite He. change (dc_alpha (sc_dc (sc_new [txt "a"; txt "a"]))) with 1. change (length [txt "a"; txt "a"]) with 2%nat.
    change (occurrences (txt "a") []) with 0%nat. change (length (@nil text)) with 0%nat. simpl. lra.
Qed.
Print Assumptions C57_state.
Print Assumptions C57_accepts.
Print Assumptions C57_predictive.
Print Assumptions C57_sums_to_one.
Print Assumptions C57_logp_is_score_increase.
Print Assumptions C57_sample.
Print Assumptions C57_sample_weights.
Print Assumptions C57_sums_to_one_refuted.
Example C57_met lg pick : let ss := [txt "yes"; txt "no"; txt "maybe"] in NoDup ss /\ ss <> [] /\
  exists s, dist_history (sc_dist lg pick ss) s [txt "no"].
Proof.
  split; [by apply (bool_decide_unpack _)|]. split; [done|].
  eexists. eapply hist_inc; [exact (hist_new (sc_dist lg pick [txt "yes"; txt "no"; txt "maybe"]) tt [])|].
  cbn [d_inc d_new sc_dist fst sc_new]. reflexivity.
Qed.

(** * C58: building distributions *)
(** The object built holds values of the type the schema declares. *)
Theorem C58_type t args sp p : dist_spec_new t args = Ok sp -> get_prior sp = Ok p -> prior_type p = ds_type sp.
Proof.
  unfold dist_spec_new. destruct (split_at _ t) as [name rest]. intros E. apply obind_Ok in E as (args' & _ & E).
  destruct (dist_of_name (str name)) as [[d ty]|] eqn:En; [|done]. injection E as <-. unfold get_prior. cbn [ds_dist ds_args ds_type].
  assert (match d with DBernoulli => BoolType | DCategorical | DSkellam => IntType | DNormal => DoubleType | _ => StringType end = ty) as Hty.
  { revert En. unfold dist_of_name. repeat (case_bool_decide; [by intros [= <- <-]|]). done. }
  rewrite <- Hty. clear. intros Hp. destruct d; repeat (apply obind_Ok in Hp as (? & _ & Hp)); try (by injection Hp as <-).
  case_bool_decide; [by injection Hp as <-|done].
Qed.
Theorem C58_emission_type t args sp p : emis_spec_new t args = Ok sp -> get_emission sp = Ok p -> emission_type p = es_type sp.
Proof.
  unfold emis_spec_new. destruct (emis_of_name (str t)) as [[d ty]|] eqn:En; [|done]. intros [= <-]. unfold get_emission. cbn [es_emis es_args es_type].
  assert (match d with ESometimesBitflip => BoolType | ESometimesCategorical => IntType | EGaussian | ESometimesGaussian => DoubleType | _ => StringType end = ty) as Hty.
  { revert En. unfold emis_of_name. repeat (case_bool_decide; [by intros [= <- <-]|]). done. }
  rewrite <- Hty. clear. intros Hp. destruct d; repeat (apply obind_Ok in Hp as (? & _ & Hp)); try (by injection Hp as <-).
  case_bool_decide; [by injection Hp as <-|done].
Qed.
(** A categorical distribution needs its number of categories and nothing else. *)
Theorem C58_categorical k : (0 <= k < 2 ^ 31)%Z ->
  get_prior (DistSpec DCategorical IntType {["k"%string := str (print_int k)]}) = Ok (PrCategorical k).
Proof.
  intros Hk. unfold get_prior. cbn [ds_dist ds_args]. rewrite map_size_singleton, bool_decide_true by done. cbn [assert_ obind].
  rewrite lookup_singleton. cbn [at_ obind]. unfold stoi. rewrite txt_str. pose proof (print_int_scan k [] Coq.Init.Logic.I) as E. rewrite app_nil_r in E. rewrite E.
  rewrite in_int_true by lia. cbn [obind]. by rewrite bool_decide_true by lia.
Qed.
Theorem C58_categorical_args args p : get_prior (DistSpec DCategorical IntType args) = Ok p ->
  exists v k, args = {["k"%string := v]} /\ p = PrCategorical k /\ (0 <= k < 2 ^ 31)%Z.
Proof.
  unfold get_prior. cbn [ds_dist ds_args]. intros E. apply obind_Ok in E as (u & Ha & E). apply assert_Ok, bool_decide_eq_true in Ha.
  apply obind_Ok in E as (v & Hv & E). apply at_Ok in Hv. apply obind_Ok in E as (k & Hk & E). case_bool_decide as H0; [|done]. injection E as <-.
  exists v, k. split_and!; try done.
  - rewrite <- (insert_delete _ _ _ Hv) in Ha |- *. rewrite map_size_insert_None in Ha by apply lookup_delete.
    assert (size (delete "k"%string args) = 0%nat) as Hz by lia. apply map_size_empty_inv in Hz. rewrite Hz. done.
  - unfold stoi in Hk. destruct (scan_int _) as [[z rest]|]; [|done]. unfold in_int in Hk. case_bool_decide; [|done]. injection Hk as <-. lia.
Qed.
(** The lists of strings: joined by a character none of them contains, they come back. *)
Theorem C58_stringcat c ss args : ss <> [] -> Forall (fun w => c ∉ w) ss ->
  args !! "strings"%string = Some (str (join_with c ss)) ->
  (args !! "delim"%string = Some (str [c]) \/ (args !! "delim"%string = None /\ c = " "%char)) ->
  get_prior (DistSpec DStringcat StringType args) = Ok (PrStringCat ss).
Proof.
  intros Hne Hc Hs Hd. unfold get_prior. cbn [ds_dist ds_args]. rewrite Hs.
  assert ((match args !! "delim"%string with Some v => match txt v with [c0] => Ok c0 | _ => AssertFail end | None => Ok " "%char end) = Ok c) as ->.
  { destruct Hd as [-> | [-> ->]]; [by rewrite txt_str|done]. }
  cbn [obind at_]. rewrite txt_str, split_join by done. done.
Qed.
(** Longest strings: 80 and 20 unless given. *)
Theorem C58_max_length d args : (d = DBigram \/ d = DStringNat) ->
  get_prior (DistSpec d StringType args) =
    let* n := match args !! "maxlength"%string with
              | None => Ok (if decide (d = DBigram) then 80%Z else 20%Z)
              | Some v => stoul (txt v) end in
    Ok (if decide (d = DBigram) then PrBigram n else PrStringNat n).
Proof. intros [-> | ->]; unfold get_prior, max_length_of; cbn [ds_dist ds_args]; by destruct (args !! "maxlength"%string). Qed.
Theorem C58_max_length_round_trip n : (0 <= n < 2 ^ 64)%Z -> stoul (print_int n) = Ok n.
Proof.
  intros Hn. unfold stoul. pose proof (print_int_scan n [] Coq.Init.Logic.I) as E. rewrite app_nil_r in E. rewrite E.
  rewrite bool_decide_true by lia. f_equal. apply Z.mod_small. lia.
Qed.
(** A negative length is not turned down: it wraps around. *)
Theorem C58_negative_length_refuted : get_prior (DistSpec DBigram StringType {["maxlength"%string := "-1"%string]}) = Ok (PrBigram (2 ^ 64 - 1)).
Proof. reflexivity. Qed.
(** Two blanks in a row make an empty string of the list. *)
Theorem C58_blanks_refuted : get_prior (DistSpec DStringcat StringType {["strings"%string := "yes  no"%string]}) = Ok (PrStringCat [txt "yes"; []; txt "no"]).
Proof. reflexivity. Qed.
(** Written in parentheses, a list of strings cannot use the comma. *)
Theorem C58_comma_refuted : dist_spec_new (txt "stringcat(strings=yes,no,delim=,)") ∅ = AssertFail.
Proof. reflexivity. Qed.
Print Assumptions C58_type.
Print Assumptions C58_emission_type.
Print Assumptions C58_categorical.
Print Assumptions C58_categorical_args.
Print Assumptions C58_stringcat.
Print Assumptions C58_max_length.
Print Assumptions C58_max_length_round_trip.
Print Assumptions C58_negative_length_refuted.
Print Assumptions C58_blanks_refuted.
Print Assumptions C58_comma_refuted.
Example C58_met : exists sp, dist_spec_new (txt "stringcat(strings=yes no,delim= )") ∅ = Ok sp /\
  get_prior sp = Ok (PrStringCat [txt "yes"; txt "no"]) /\
  dist_spec_new (txt "categorical(k=5)") ∅ = Ok (DistSpec DCategorical IntType {["k"%string := "5"%string]}).
Proof. eexists. split; [reflexivity|]. split; [reflexivity|]. reflexivity. Qed.
