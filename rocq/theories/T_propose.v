(** Theorems about proposed clean values and simple strings: C36, C37. *)
From Coq Require Import ZArith Reals Ascii Lra.
From stdpp Require Import list gmap strings.
From Coq Require Import Lia.
From Verif Require Import M_base M_text M_math M_dist M_distributions M_noisy M_emissions M_align
  S_math S_crp S_dist S_relation S_align S_emissions P_base P_math P_dist P_beta_bernoulli P_dirichlet P_normal P_bigram P_align
  P_dist P_weights P_emissions P_emission_laws P_propose.
Local Open Scope nat_scope.

(** ** C36: proposed clean values *)
Theorem C36_sometimes {V} `{EqDecision V} (l : list V) :
  (l <> [] -> exists m, sm_propose l = Ok m /\ most_frequent m l) /\ (l = [] -> sm_propose l = UB).
Proof.
  split; [|intros ->; done]. intros Hl. destruct l as [|c l]; [done|]. exists (mode_of c (c :: l)). split; [done|]. by apply mode_frequent.
Qed.
Print Assumptions C36_sometimes.
Example C36_sometimes_meets : sm_propose [true; false; false] = Ok false.
Proof. reflexivity. Qed.

Theorem C36_gaussian (l : list R) : ga_propose l = mean_of l.
Proof. unfold ga_propose. by rewrite mean_fold. Qed.
Print Assumptions C36_gaussian.

Theorem C36_bitflip (l : list bool) :
  (forall c, l !! 0 = Some c -> bf_propose l = Ok (negb c)) /\ (l = [] -> bf_propose l = UB).
Proof. split; [intros c Hc; unfold bf_propose; by rewrite Hc|by intros ->]. Qed.
Print Assumptions C36_bitflip.

(** The category with the highest total log probability of the observed values, the first
    one of several. *)
Theorem C36_categorical c l m : cg_propose c l = Ok m -> cg_dists c <> [] ->
  exists i best, m = Z.of_nat i /\ i < length (cg_dists c) /\ total_of (fun x => cg_logp c (m, x)) l best /\
    forall j, j < length (cg_dists c) -> exists t, total_of (fun x => cg_logp c (Z.of_nat j, x)) l t /\ (t <= best)%R /\ (j < i -> (t < best)%R).
Proof.
  intros H Hne. unfold cg_propose in H. apply obind_Ok in H as ([st low] & H & [= <-]). apply propose_fold in H as [_ [[E _]|(i & best & Hi & Hst & Hlow & H)]]; [congruence|].
  cbn [fst snd] in *. exists i, best. rewrite Hst.
  assert (forall j d, cg_dists c !! j = Some d -> forall x, cg_logp c (Z.of_nat j, x) = dc_logp d x) as Hc.
  { intros j d Hj x. unfold cg_logp, cg_row. cbn [fst snd]. rewrite bool_decide_eq_true_2 by lia. rewrite Nat2Z.id, Hj. done. }
  assert (forall j, j < length (cg_dists c) -> exists t, total_of (fun x => cg_logp c (Z.of_nat j, x)) l t /\ (t <= best)%R /\ (j < i -> (t < best)%R) /\ (j = i -> t = best)) as Hall.
  { intros j Hj. destruct (lookup_lt_is_Some_2 _ _ Hj) as [d Hd]. destruct (H j d Hd) as (t & (ts & HF & ->) & Ht). exists (Rsum ts). split; [|done]. exists ts. split; [|done].
    eapply Forall2_impl; [exact HF|]. intros x y Hx. cbn. by rewrite (Hc j d Hd). }
  split_and!; [done|done| |].
  - destruct (Hall i Hi) as (t & Ht & _ & _ & E). by rewrite <- E.
  - intros j Hj. destruct (Hall j Hj) as (t & Ht & H1 & H2 & _). by exists t.
Qed.
Print Assumptions C36_categorical.
(** It returns whenever the observed values are categories. *)
Theorem C36_categorical_returns c l k : Forall (fun d => length (dc_counts d) = k) (cg_dists c) -> Forall (fun x => 0 <= x < Z.of_nat k)%Z l ->
  exists m, cg_propose c l = Ok m.
Proof.
  intros Hc Hl. unfold cg_propose.
  assert (forall d, length (dc_counts d) = k -> exists t, cg_total d l = Ok t) as Ht.
  { intros d Hd. unfold cg_total. generalize 0%R. induction Hl as [|x l Hx Hl IH]; intros a; [by exists a|]. cbn [foldM].
    assert (exists y, dc_logp d x = Ok y) as [y ->].
    { unfold dc_logp, dc_in_range. rewrite Hd. rewrite bool_decide_eq_true_2 by done. cbn [assert_ obind]. destruct (lookup_lt_is_Some_2 (dc_counts d) (Z.to_nat x)) as [z ->]; [lia|]. by eexists. }
    cbn [obind]. apply IH. }
  assert (exists st, foldM (cg_propose_step l) (0, 0%Z, None) (cg_dists c) = Ok st) as [[st low] ->]; [|cbn; by eexists].
  generalize (0, 0%Z, @None R). induction Hc as [|d ds Hd Hds IH]; intros st; [by eexists|]. cbn [foldM]. destruct st as [[i b] low]. unfold cg_propose_step at 1.
  destruct (Ht d Hd) as [t ->]. cbn [obind]. apply IH.
Qed.
Print Assumptions C36_categorical_returns.

(** Strings: the vote on every position always ends; every character of the result is one
    that most strings have there, a string's end counting as the character 0, and after the
    result most strings have ended. *)
Theorem C36_simple_string (l : list text) : exists m, ss_propose l = Ok m /\ zero ∉ m /\
  (l <> [] -> (forall i c, m !! i = Some c -> most_frequent c (map (fun s => default zero (s !! i)) l)) /\
              most_frequent zero (map (fun s => default zero (s !! length m)) l)).
Proof.
  destruct (propose_spec l) as (m & Hm & Hv & He). exists m. split; [exact Hm|]. split.
  - intros Hin. apply elem_of_list_lookup in Hin as [i Hi]. destruct (Hv i) as (c & Hc & Hn & _); [by eapply lookup_lt_Some|]. rewrite Hi in Hc. injection Hc as <-. done.
  - intros Hl. assert (forall i, map (char_at i) l <> []) as Hne by (intros i; by destruct l).
    split.
    + intros i c Hi. destruct (Hv i) as (c' & Hc & _ & E); [by eapply lookup_lt_Some|]. rewrite Hi in Hc. injection Hc as <-. rewrite <- E. exact (mode_frequent nul (map (char_at i) l) (Hne i)).
    + change zero with nul. rewrite <- He at 1. exact (mode_frequent nul (map (char_at (length m)) l) (Hne _)).
Qed.
Print Assumptions C36_simple_string.
(** A string more than half of the observed ones are equal to is proposed. *)
Theorem C36_simple_string_majority s l : zero ∉ s -> length l < 2 * occurrences s l -> ss_propose l = Ok s.
Proof. apply propose_majority. Qed.
Print Assumptions C36_simple_string_majority.
Theorem C36_simple_string_copies s n : zero ∉ s -> 0 < n -> ss_propose (replicate n s) = Ok s.
Proof.
  intros Hs Hn. apply propose_majority; [done|]. rewrite replicate_length.
  assert (occurrences s (replicate n s) = n) as ->; [|lia]. clear. induction n as [|n IH]; [done|]. cbn [replicate]. rewrite occurrences_cons, IH. by rewrite decide_True.
Qed.
Print Assumptions C36_simple_string_copies.
Example C36_simple_string_meets : ss_propose [txt "cat"; txt "bat"; txt "catfish"; txt "cat"; txt "cat"] = Ok (txt "cat").
Proof. reflexivity. Qed.
(** Not for a string with a character 0 in it. *)
Theorem C36_simple_string_refuted : exists s, ss_propose [s; s; s] <> Ok s.
Proof. exists [zero]. by vm_compute. Qed.
Print Assumptions C36_simple_string_refuted.

(** ** C37: simple strings *)
Local Open Scope R_scope.
(** Incorporation always returns (the recursion ends), and what is kept is the number of
    trials and of successes of three kinds. *)
Theorem C37_returns s x w : exists s', ss_incorporate s x w = Ok s'.
Proof.
  unfold ss_incorporate. generalize (Simple (ss_N s + w) (ss_sub s) (ss_ins s) (ss_del s)). destruct x as [clean dirty]. cbn [fst snd].
  assert (forall fuel clean dirty s, (length clean + length dirty < fuel)%nat -> exists s', corporate fuel s clean dirty w = Ok s') as H; [|intros t; apply H; lia].
  clear. induction fuel as [|fuel IH]; intros clean dirty s Hf; [lia|]. cbn [corporate]. destruct clean as [|c clean]; destruct dirty as [|d dirty]; [by eexists|by eexists|by eexists|].
  cbn [length] in Hf. repeat case_match; apply IH; rewrite ?take_length; cbn [length]; lia.
Qed.
Print Assumptions C37_returns.

Lemma wtotal_trials f l g : wtotal g (all_trials f l) = wtotal (fun x => Rsum (map g (f (diff_of x)))) l.
Proof.
  induction l as [|[x w] l IH]; [done|]. unfold all_trials in *. cbn [map concat fst snd]. rewrite wtotal_cons, <- IH. clear IH. generalize (concat (map (fun e => tag e.2 (f (diff_of e.1))) l)).
  intros k. induction (f (diff_of x)) as [|b bs IHb]; [change (Rsum (map g [])) with 0; cbn [tag map app]; lra|]. cbn [tag map app]. fold (tag w bs). rewrite wtotal_cons, IHb, Rsum_cons. lra.
Qed.
Lemma Rsum_ones (bs : list bool) : Rsum (map (fun _ => 1) bs) = INR (length bs).
Proof. induction bs as [|b bs IH]; [done|]. cbn [map length]. rewrite Rsum_cons, IH, S_INR. lra. Qed.
Lemma Rsum_trues (bs : list bool) : Rsum (map (fun x => ind (x = true)) bs) = INR (occurrences true bs).
Proof.
  induction bs as [|b bs IH]; [done|]. cbn [map]. rewrite Rsum_cons, IH, occurrences_cons, plus_INR. unfold ind. by destruct (decide (b = true)).
Qed.
Lemma trues_total' l : Forall (fun e => whole_weight e.2) l -> IZR (trues l) = wtotal (fun x => ind (x = true)) l.
Proof.
  induction 1 as [|[x w] l [z Hz] _ IH]; [done|]. cbn in Hz. subst w. rewrite trues_cons, wtotal_cons, <- IH. unfold ind. destruct x.
  - rewrite to_int_IZR, plus_IZR, decide_True by done. lra.
  - rewrite decide_False by done. lra.
Qed.
Lemma all_trials_whole f l : Forall (fun e => whole_weight e.2) l -> Forall (fun e => whole_weight e.2) (all_trials f l).
Proof.
  induction 1 as [|e l He _ IH]; [constructor|]. unfold all_trials. cbn [map concat]. apply Forall_app. split; [|exact IH]. unfold tag. apply Forall_map. by apply Forall_true.
Qed.
Lemma wtotal_ext {X} (f g : X -> R) l : (forall x, f x = g x) -> wtotal f l = wtotal g l.
Proof. intros H. unfold wtotal. f_equal. apply map_ext. intros e. by rewrite H. Qed.

(** The outcome of one pair of strings: what happened at the trials of substitution,
    insertion and deletion; [true] is an error. *)
Record string_trials := Trials { substitutions : list bool; insertions : list bool; deletions : list bool }.
Definition accounts_for (clean dirty : text) (t : string_trials) : Prop :=
  occurrences true (insertions t) = (length dirty - length clean)%nat /\
  occurrences true (deletions t) = (length clean - length dirty)%nat /\
  length (deletions t) = length clean /\
  length (substitutions t) = Nat.min (length clean) (length dirty) /\
  (occurrences false (insertions t) = length clean \/ occurrences false (insertions t) = S (length clean)) /\
  (* the errors turn [clean] into [dirty] *)
  (exists ps, aligns ps clean dirty /\
     edits ps = (occurrences true (substitutions t) + occurrences true (insertions t) + occurrences true (deletions t))%nat) /\
  (clean = dirty -> true ∉ substitutions t).
Theorem C37_trials : exists trials_of : text * text -> string_trials,
  (forall clean dirty, accounts_for clean dirty (trials_of (clean, dirty))) /\
  forall s l, weighted_history ss_new ss_incorporate whole_weight s l ->
    ss_N s = weight_of l /\
    bb_N (ss_sub s) = wtotal (fun x => INR (length (substitutions (trials_of x)))) l /\
    bb_N (ss_ins s) = wtotal (fun x => INR (length (insertions (trials_of x)))) l /\
    bb_N (ss_del s) = wtotal (fun x => INR (length (deletions (trials_of x)))) l /\
    IZR (bb_s (ss_sub s)) = wtotal (fun x => INR (occurrences true (substitutions (trials_of x)))) l /\
    IZR (bb_s (ss_ins s)) = wtotal (fun x => INR (occurrences true (insertions (trials_of x)))) l /\
    IZR (bb_s (ss_del s)) = wtotal (fun x => INR (occurrences true (deletions (trials_of x)))) l.
Proof.
  exists (fun x => let t := diff_of x in Trials t.1.1 t.1.2 t.2). split.
  - intros clean dirty. unfold diff_of. cbn [fst snd]. destruct (diff_spec (S (length clean + length dirty)) clean dirty) as [F1 F2 F3 F4 F5 F6]; [lia|].
    split_and!; try done. cbn [substitutions]. intros ->. rewrite diff_same by lia. cbn. intros Hin. apply elem_of_replicate in Hin as [? _]. done.
  - intros s l H. apply (history_wlawful _ _ ss_wlawful (((1, 1), (1, 1)), (1, 1))) in H as (-> & Hok & _).
    cbn [wl_of ss_wlawful wss_of simple_of ss_N ss_sub ss_ins ss_del wbb_of bb_N bb_s substitutions insertions deletions].
    rewrite !trues_total' by by apply all_trials_whole. unfold weight_of. rewrite !wtotal_trials.
    split_and!; try done; apply wtotal_ext; intros x; first [apply Rsum_ones | apply Rsum_trues].
Qed.
Print Assumptions C37_trials.
(** So never fewer errors than the edit distance. *)
Theorem C37_at_least_edit_distance clean dirty t : accounts_for clean dirty t ->
  (levenshtein clean dirty <= occurrences true (substitutions t) + occurrences true (insertions t) + occurrences true (deletions t))%nat.
Proof. intros (_ & _ & _ & _ & _ & (ps & Ha & <-) & _). by apply lev_least. Qed.
Print Assumptions C37_at_least_edit_distance.

(** Taking out undoes putting in, in any order: for pairs put in by the model, each with
    weight 1, through any history with transitions of the parameters. *)
Theorem C37_undone lg s l x s' : dist_history (em_dist (simple_string_emis lg)) s l -> d_inc (em_dist (simple_string_emis lg)) s x = Ok s' ->
  d_uninc (em_dist (simple_string_emis lg)) s' x = Ok s.
Proof.
  intros H Hi. destruct (history_lawful _ (ss_lawful lg) _ _ H) as [Ha [h ->]]. apply (law_inc _ (ss_lawful lg)) in Hi as [Hx ->]; [|done].
  apply (law_uninc _ (ss_lawful lg)). by constructor.
Qed.
Print Assumptions C37_undone.

(** The log probability is the increase of the score, and computing it leaves the object as
    it was. *)
Theorem C37_logp lg s l x : dist_history (em_dist (simple_string_emis lg)) s l ->
  exists s1, ss_incorporate s x 1 = Ok s1 /\ ss_logp lg s x = Ok (ss_score lg s1 - ss_score lg s, s).
Proof.
  intros H. destruct (C37_returns s x 1) as [s1 Hs1]. exists s1. split; [done|]. unfold ss_logp. rewrite Hs1. cbn [obind].
  pose proof (C37_undone lg s l x s1 H Hs1) as Hu. cbn [d_uninc em_dist simple_string_emis] in Hu. rewrite Hu. done.
Qed.
Print Assumptions C37_logp.

Lemma all_trials_ones f l : all_trials f (ones l) = ones (concat (map (fun x => f (diff_of x)) l)).
Proof.
  induction l as [|x l IH]; [done|]. cbn [ones map]. fold (ones l). unfold all_trials in *. cbn [map concat fst snd]. rewrite IH. unfold ones, tag. by rewrite map_app.
Qed.
Lemma wbb_of_ones (h : R * R) (Hh : positive2 h) l : wbb_of h (ones l) = bb_of (exist _ h Hh) l.
Proof.
  unfold wbb_of, bb_of. cbn [proj1_sig]. f_equal; [apply ones_weight|]. induction l as [|x l IH]; [done|]. cbn [ones map]. fold (ones l).
  rewrite trues_cons, IH, occurrences_cons. destruct x; [rewrite (to_int_IZR 1), decide_True by done|rewrite decide_False by done]; lia.
Qed.
Lemma bb_logp_neg h l x : bb_logp (bb_of h l) x <= 0.
Proof.
  pose proof (bb_predictive h l) as Hp. pose proof (exp_pos (bb_logp (bb_of h l) true)). pose proof (exp_pos (bb_logp (bb_of h l) false)).
  destruct (Rle_dec (bb_logp (bb_of h l) x) 0) as [|Hn]; [done|]. assert (1 < exp (bb_logp (bb_of h l) x)) by (rewrite <- exp_0; apply exp_increasing; lra).
  destruct x; lra.
Qed.
Lemma bb_score_down lg h t l : is_lgamma lg -> bb_score lg (bb_of h (t ++ l)) <= bb_score lg (bb_of h l).
Proof.
  intros Hlg. induction t as [|x t IH]; [cbn; lra|]. cbn [app]. pose proof (bb_chain lg h (t ++ l) x Hlg). pose proof (bb_logp_neg h (t ++ l) x). lra.
Qed.
(** It is a logarithm of a probability plus [ln 95] for every substituted and every inserted
    character, where it should be minus. *)
Theorem C37_logp_value lg s l x : is_lgamma lg -> dist_history (em_dist (simple_string_emis lg)) s l ->
  exists p t, ss_logp lg s x = Ok (p, s) /\ accounts_for x.1 x.2 t /\
    p - INR (occurrences true (substitutions t) + occurrences true (insertions t)) * ln 95 <= 0.
Proof.
  intros Hlg H. destruct (C37_logp lg s l x H) as (s1 & Hs1 & Hp). exists (ss_score lg s1 - ss_score lg s).
  exists (let t := diff_of x in Trials t.1.1 t.1.2 t.2). split; [exact Hp|]. split.
  { destruct x as [clean dirty]. unfold diff_of. cbn [fst snd]. destruct (diff_spec (S (length clean + length dirty)) clean dirty) as [F1 F2 F3 F4 F5 F6]; [lia|].
    split_and!; try done. cbn [substitutions]. intros ->. rewrite diff_same by lia. cbn. intros Hin. apply elem_of_replicate in Hin as [? _]. done. }
  destruct (history_lawful _ (ss_lawful lg) _ _ H) as [Ha [[h (G1 & G2 & G3)] ->]]. cbn [law_of ss_lawful wdist_lawful proj1_sig wl_of ss_wlawful] in Hs1. rewrite wss_inc in Hs1 by apply whole_1. injection Hs1 as <-.
  change ((x, 1) :: ones l) with (ones (x :: l)). cbn [law_of ss_lawful wdist_lawful proj1_sig wl_of ss_wlawful].
  unfold ss_score, wss_of, simple_of. cbn [ss_sub ss_ins ss_del]. rewrite !all_trials_ones. cbn [map concat].
  rewrite !(wbb_of_ones _ G1), !(wbb_of_ones _ G2), !(wbb_of_ones _ G3).
  pose proof (bb_score_down lg (exist _ _ G1) (diff_of x).1.1 (concat (map (fun x => (diff_of x).1.1) l)) Hlg).
  pose proof (bb_score_down lg (exist _ _ G2) (diff_of x).1.2 (concat (map (fun x => (diff_of x).1.2) l)) Hlg).
  pose proof (bb_score_down lg (exist _ _ G3) (diff_of x).2 (concat (map (fun x => (diff_of x).2) l)) Hlg).
  cbn [bb_of bb_s substitutions insertions]. rewrite !occ_app. rewrite !Nat2Z.inj_add, !plus_IZR, plus_INR, !INR_IZR_INZ. change (126 + 1 - 32)%Z with 95%Z. lra.
Qed.
Print Assumptions C37_logp_value.
Theorem C37_logp_same_string lg s l c : is_lgamma lg -> dist_history (em_dist (simple_string_emis lg)) s l ->
  exists p, ss_logp lg s (c, c) = Ok (p, s) /\ p <= 0.
Proof.
  intros Hlg H. destruct (C37_logp_value lg s l (c, c) Hlg H) as (p & t & Hp & (F1 & _ & _ & _ & _ & _ & F7) & Hle). exists p. split; [done|].
  cbn [fst snd] in *. assert (occurrences true (substitutions t) = 0%nat) as E.
  { specialize (F7 eq_refl). unfold occurrences. destruct (filter _ _) as [|b bs] eqn:Ef; [done|]. assert (b ∈ filter (fun y => y = true) (substitutions t)) as Hb by (rewrite Ef; by left).
    apply elem_of_list_filter in Hb as [-> Hb]. done. }
  rewrite E, F1, Nat.sub_diag in Hle. cbn in Hle. lra.
Qed.
Print Assumptions C37_logp_same_string.
(** So it can be positive: "a" observed as "b" by a new object. *)
Theorem C37_logp_refuted lg : is_lgamma lg -> exists p, ss_logp lg ss_new (txt "a", txt "b") = Ok (p, ss_new) /\ 0 < p.
Proof.
  intros Hlg. destruct (C37_logp lg ss_new [] (txt "a", txt "b") (hist_new (em_dist (simple_string_emis lg)) () [])) as (s1 & Hs1 & Hp).
  eexists. split; [exact Hp|]. assert (s1 = wss_of (((1, 1), (1, 1)), (1, 1)) (ones [(txt "a", txt "b")])) as ->.
  { pose proof (wss_inc (((1, 1), (1, 1)), (1, 1)) [] (txt "a", txt "b") 1 whole_1) as Hw. assert (Ok s1 = Ok (wss_of (((1, 1), (1, 1)), (1, 1)) [((txt "a", txt "b"), 1)])) as E.
    { rewrite <- Hs1. exact Hw. } by injection E. }
  change ss_new with (wss_of (((1, 1), (1, 1)), (1, 1)) (ones [])).
  unfold ss_score, wss_of, simple_of. cbn [ss_sub ss_ins ss_del]. rewrite !all_trials_ones. cbn [fst snd].
  change (concat (map (fun x => (diff_of x).1.1) [(txt "a", txt "b")])) with [true].
  change (concat (map (fun x => (diff_of x).1.2) [(txt "a", txt "b")])) with [false; false].
  change (concat (map (fun x => (diff_of x).2) [(txt "a", txt "b")])) with [false].
  change (concat (map (fun x => (diff_of x).1.1) [])) with ([] : list bool). change (concat (map (fun x => (diff_of x).1.2) [])) with ([] : list bool).
  change (concat (map (fun x => (diff_of x).2) [])) with ([] : list bool). rewrite !(wbb_of_ones _ ones_11).
  set (h := exist _ (1, 1) ones_11).
  pose proof (bb_chain lg h [] true Hlg) as B1. pose proof (bb_chain lg h [] false Hlg) as B2. pose proof (bb_chain lg h [false] false Hlg) as B3.
  change (126 + 1 - 32)%Z with 95%Z.
  assert (forall a b : R, 0 < a -> 0 < b -> ln a - ln b = ln (a / b)) as Hln by (intros a b Ha Hb; unfold Rdiv; rewrite ln_mult, ln_Rinv by (try done; by apply Rinv_0_lt_compat); lra).
  assert (bb_logp (bb_of h []) true = ln (1 / 2)) as E1 by (unfold bb_logp, h; cbn [bb_of bb_N bb_s bb_alpha bb_beta proj1_sig fst snd length]; change (INR 0) with 0; change (Z.of_nat (occurrences true [])) with 0%Z; rewrite Hln by lra; f_equal; field).
  assert (bb_logp (bb_of h []) false = ln (1 / 2)) as E2 by (unfold bb_logp, h; cbn [bb_of bb_N bb_s bb_alpha bb_beta proj1_sig fst snd length]; change (INR 0) with 0; change (Z.of_nat (occurrences true [])) with 0%Z; rewrite Hln by lra; f_equal; field).
  assert (bb_logp (bb_of h [false]) false = ln (2 / 3)) as E3 by (unfold bb_logp, h; cbn [bb_of bb_N bb_s bb_alpha bb_beta proj1_sig fst snd length]; change (INR 1) with 1; change (Z.of_nat (occurrences true [false])) with 0%Z; rewrite Hln by lra; f_equal; field).
  assert (0 < ln (1 / 2) + ln (1 / 2) + ln (2 / 3) + ln (1 / 2) + ln 95) as HL.
  { rewrite <- !ln_mult by lra. rewrite <- ln_1. apply ln_increasing; lra. }
  cbn [bb_of bb_s]. change (Z.of_nat (occurrences true [true]) + Z.of_nat (occurrences true [false; false]))%Z with 1%Z.
  change (Z.of_nat (occurrences true []) + Z.of_nat (occurrences true []))%Z with 0%Z. cbn [bb_of] in *. lra.
Qed.
Print Assumptions C37_logp_refuted.

(** Every character of a sampled string is one of the clean string or has a code from 32 to
    127, and whenever sampling ends that is what it returns. *)
Definition sampled_char (clean : text) (c : ascii) : Prop := c ∈ clean \/ (32 <= nat_of_ascii c <= 127)%nat.
Lemma random_character_code r : (32 <= nat_of_ascii (random_character r).1 <= 127)%nat.
Proof.
  unfold random_character. destruct (choose_index (127 - 32 + 1) r) as [i r'] eqn:E. cbn [fst].
  assert (i < 96)%nat by (unfold choose_index in E; destruct (draw r) as [n r0]; injection E as <- _; exact (Nat.mod_upper_bound n 96 ltac:(lia))).
  rewrite nat_ascii_embedding; lia.
Qed.
Lemma random_insertions_chars clean s fuel : forall out r out' r', Forall (sampled_char clean) out ->
  random_insertions fuel s out r = Ok (out', r') -> Forall (sampled_char clean) out' /\ exists ins, out' = out ++ ins.
Proof.
  induction fuel as [|fuel IH]; intros out r out' r' Hf H; [done|]. cbn [random_insertions] in H. apply obind_Ok in H as ([b r1] & _ & H). destruct b.
  - pose proof (random_character_code r1) as Hc. destruct (random_character r1) as [c r2]. cbn [fst] in Hc. apply IH in H as [H1 [ins ->]].
    + split; [done|]. exists (c :: ins). by rewrite <- app_assoc.
    + apply Forall_app. split; [done|]. apply Forall_singleton. by right.
  - injection H as <- <-. split; [done|]. exists []. by rewrite app_nil_r.
Qed.
Theorem C37_sampled_characters s clean r out r' : ss_corrupt s clean r = Ok (out, r') -> Forall (sampled_char clean) out.
Proof.
  unfold ss_corrupt. intros H. apply obind_Ok in H as ([o r1] & Hf & H). apply (random_insertions_chars clean) in H as [H _]; [done|].
  assert (forall l st st', Forall (fun c => c ∈ clean) l -> Forall (sampled_char clean) st.1 -> foldM (corrupt_char s) st l = Ok st' -> Forall (sampled_char clean) st'.1) as HF.
  { clear. induction l as [|c l IH]; intros st st' Hl Hst Hf; cbn [foldM] in Hf; [by injection Hf as <-|]. apply obind_Ok in Hf as (st1 & H1 & Hf). apply Forall_cons in Hl as [Hc Hl].
    apply (IH st1 st'); [done| |done]. destruct st as [o r]. unfold corrupt_char in H1. apply obind_Ok in H1 as ([o1 r1] & Hi & H1). apply (random_insertions_chars clean) in Hi as [Ho1 _]; [|done].
    apply obind_Ok in H1 as ([b r2] & _ & H1). destruct b; [by injection H1 as <-|]. apply obind_Ok in H1 as ([b r3] & _ & H1). destruct b.
    - pose proof (random_character_code r3) as Hr. destruct (random_character r3) as [c' r4]. injection H1 as <-. apply Forall_app. split; [done|]. apply Forall_singleton. by right.
    - injection H1 as <-. apply Forall_app. split; [done|]. apply Forall_singleton. by left. }
  eapply (HF _ _ _ _ _ Hf). Unshelve. by apply Forall_forall. constructor.
Qed.
Print Assumptions C37_sampled_characters.
(** A character that is not printable can be sampled: the code 127. *)
Theorem C37_printable_refuted : exists r out r', ss_corrupt ss_new (txt "") r = Ok (out, r') /\ exists c, c ∈ out /\ nat_of_ascii c = 127%nat.
Proof. exists [1; 95; 0]%nat, [ascii_of_nat 127], []. split; [reflexivity|]. exists (ascii_of_nat 127). split; [by left|reflexivity]. Qed.
Print Assumptions C37_printable_refuted.
(** The number of insertion trials without an insertion is not the number of places of the
    clean string (its length plus 1): it depends on the observed string. *)
Theorem C37_insertion_places_refuted : exists s1 s2,
  ss_incorporate ss_new (txt "", txt "a") 1 = Ok s1 /\ bb_N (ss_ins s1) - IZR (bb_s (ss_ins s1)) = INR (length (txt "")) /\
  ss_incorporate ss_new (txt "", txt "") 1 = Ok s2 /\ bb_N (ss_ins s2) - IZR (bb_s (ss_ins s2)) = INR (length (txt "")) + 1.
Proof.
  pose proof (wss_inc (((1, 1), (1, 1)), (1, 1)) [] (txt "", txt "a") 1 whole_1) as H1. pose proof (wss_inc (((1, 1), (1, 1)), (1, 1)) [] (txt "", txt "") 1 whole_1) as H2.
  eexists _, _. split; [exact H1|]. split; [|split; [exact H2|]].
  - cbn [wss_of simple_of ss_ins]. change (all_trials (fun t => t.1.2) [((txt "", txt "a"), 1)]) with [(true, 1)]. unfold wbb_of. cbn [bb_N bb_s]. rewrite weight_cons, trues_cons, (to_int_IZR 1). change (1 + trues [])%Z with 1%Z. change (INR (length (txt ""))) with 0. change (weight_of []) with 0. lra.
  - cbn [wss_of simple_of ss_ins]. change (all_trials (fun t => t.1.2) [((txt "", txt ""), 1)]) with [(false, 1)]. unfold wbb_of. cbn [bb_N bb_s]. rewrite weight_cons, trues_cons. change (trues []) with 0%Z. change (INR (length (txt ""))) with 0. change (weight_of []) with 0. lra.
Qed.
Print Assumptions C37_insertion_places_refuted.
Example C37_sampled_meets : exists out r', ss_corrupt ss_new (txt "ab") [0; 0; 0; 1; 33; 0; 1; 0]%nat = Ok (out, r') /\ out = txt "aA".
Proof. eexists _, _. split; [vm_compute; reflexivity|reflexivity]. Qed.
