(** Theorems about weighted updates: C24. *)
From Coq Require Import ZArith Reals Ascii Lra.
From stdpp Require Import list gmap strings.
From Coq Require Import Lia.
From Verif Require Import M_base M_text M_math M_dist M_distributions M_noisy M_emissions M_align
  S_math S_dist S_relation S_align S_emissions P_base P_math P_dist P_beta_bernoulli P_dirichlet P_normal P_bigram P_weights P_emissions P_emission_laws.
Local Open Scope R_scope.

(** ** C24: a weighted update is undone by the update of the opposite weight, and the
    statistics are the weighted ones of the values in the object *)
Lemma trues_total l : Forall (fun e => whole_weight e.2) l -> IZR (trues l) = wtotal (fun x => ind (x = true)) l.
Proof.
  induction 1 as [|[x w] l [z Hz] _ IH]; [done|]. cbn in Hz. subst w. rewrite trues_cons, wtotal_cons, <- IH. unfold ind. destruct x.
  - rewrite to_int_IZR, plus_IZR, decide_True by done. lra.
  - rewrite decide_False by done. lra.
Qed.
Theorem C24_beta_bernoulli : undoes bb_new (fun b x w => Ok (bb_incorporate b x w)) whole_weight /\
  forall b l, weighted_history bb_new (fun b x w => Ok (bb_incorporate b x w)) whole_weight b l ->
    bb_N b = weight_of l /\ IZR (bb_s b) = wtotal (fun x => ind (x = true)) l /\ bb_alpha b = 1 /\ bb_beta b = 1.
Proof.
  split; [by apply (wlawful_undoes _ _ bb_wlawful (1, 1))|]. intros b l H. apply (history_wlawful _ _ bb_wlawful (1, 1)) in H as (-> & Hok & _).
  split_and!; [done|by apply trues_total|done|done].
Qed.
Print Assumptions C24_beta_bernoulli.
Example C24_beta_bernoulli_meets : exists b, weighted_history bb_new (fun b x w => Ok (bb_incorporate b x w)) whole_weight b [(true, 2); (false, 1)].
Proof. eexists. eapply wh_in; [eapply wh_in; [apply wh_start|by exists 1%Z|done]|by exists 2%Z|done]. Qed.

(** With weights that are not whole it is not undone: the count is an [int]. *)
Lemma to_int_frac z y : IZR z <= y < IZR z + 1 -> 0 <= y -> to_int y = z.
Proof.
  intros H H0. unfold to_int. destruct (Rle_dec 0 y) as [_|Hn]; [|lra]. unfold Int_part. assert (up y = (z + 1)%Z) as ->; [|lia].
  symmetry. apply tech_up; rewrite plus_IZR; lra.
Qed.
Theorem C24_beta_bernoulli_refuted : ~ undoes bb_new (fun b x w => Ok (bb_incorporate b x w)) positive_weight.
Proof.
  intros [H _]. specialize (H (bb_incorporate bb_new true 1) [(true, 1)] true (1 / 2) _ ltac:(eapply wh_in; [apply wh_start|exact Rlt_0_1|done])
    ltac:(unfold positive_weight; lra) eq_refl).
  injection H as _ H. unfold bb_incorporate, bb_new in H. cbn [bb_s b2r] in H. rewrite (to_int_frac 1 (0 + 1 * 1)) in H by lra.
  rewrite (to_int_frac 1 (1 + 1 / 2 * 1)) in H by lra. rewrite (to_int_frac 0 (1 + - (1 / 2) * 1)) in H by lra. done.
Qed.
Print Assumptions C24_beta_bernoulli_refuted.

Theorem C24_dirichlet_categorical k : undoes (dc_new k) dc_incorporate any_weight /\
  forall d l, weighted_history (dc_new k) dc_incorporate any_weight d l ->
    dc_N d = weight_of l /\ length (dc_counts d) = k /\ dc_alpha d = 1 /\
    forall i, (i < k)%nat -> dc_counts d !! i = Some (wtotal (fun x => ind (x = Z.of_nat i)) l).
Proof.
  assert (dc_new k = wl_of (dc_wlawful k) 1 []) as E.
  { unfold dc_new. cbn. unfold wdc_of. f_equal. apply list_eq. intros i. destruct (decide (i < k)%nat).
    - by rewrite wcounts_lookup, lookup_replicate_2 by done.
    - rewrite !lookup_ge_None_2; [done|rewrite wcounts_length|rewrite replicate_length]; lia. }
  split; [by apply (wlawful_undoes _ _ (dc_wlawful k) 1)|]. intros d l H. rewrite E in H. apply history_wlawful in H as (-> & _).
  split_and!; [done|apply wcounts_length|done|]. intros i Hi. by apply wcounts_lookup.
Qed.
Print Assumptions C24_dirichlet_categorical.
Example C24_dirichlet_categorical_meets : exists d, weighted_history (dc_new 3) dc_incorporate any_weight d [(2%Z, 1 / 2); (0%Z, 1 / 3)].
Proof. eexists. eapply wh_in; [eapply wh_in; [apply wh_start|done|reflexivity]|done|reflexivity]. Qed.

Theorem C24_zero_mean_normal : undoes zm_new (fun n x w => Ok (zm_incorporate n x w)) positive_weight /\
  forall n l, weighted_history zm_new (fun n x w => Ok (zm_incorporate n x w)) positive_weight n l ->
    zm_N n = weight_of l /\ zm_var n = wavg (fun x => x * x) l.
Proof.
  split; [by apply (wlawful_undoes _ _ zm_wlawful (1, 1))|]. intros n l H. apply (history_wlawful _ _ zm_wlawful (1, 1)) in H as (-> & _). done.
Qed.
Print Assumptions C24_zero_mean_normal.
Theorem C24_normal : undoes nm_new (fun n x w => Ok (nm_incorporate n x w)) positive_weight /\
  forall n l, weighted_history nm_new (fun n x w => Ok (nm_incorporate n x w)) positive_weight n l ->
    nm_N n = weight_of l /\ nm_mean n = wavg (fun x => x) l /\ nm_var n = wavg (fun x => x * x) l - wavg (fun x => x) l * wavg (fun x => x) l.
Proof.
  assert (nm_new = wl_of nm_wlawful (1, 1, 0, 1) []) as E by (cbn; unfold wnm_of; cbn; unfold nm_new; f_equal; lra).
  split; [by apply (wlawful_undoes _ _ nm_wlawful (1, 1, 0, 1))|]. intros n l H. rewrite E in H. apply history_wlawful in H as (-> & _). done.
Qed.
Print Assumptions C24_normal.
Example C24_normal_meets : exists n, weighted_history nm_new (fun n x w => Ok (nm_incorporate n x w)) positive_weight n [(3, 2); (5, 1 / 2)].
Proof. eexists. eapply wh_in; [eapply wh_in; [apply wh_start|unfold positive_weight; lra|reflexivity]|unfold positive_weight; lra|reflexivity]. Qed.

Theorem C24_bigram ml mn mx : undoes (bg_new ml mn mx) bg_incorporate any_weight /\
  forall b l, weighted_history (bg_new ml mn mx) bg_incorporate any_weight b l -> bg_N b = weight_of l.
Proof.
  assert (bg_new ml mn mx = wl_of (bg_wlawful ml mn mx) 1 []) as E.
  { cbn. unfold bg_new, wbg_of. fold (num_of mn mx). f_equal. apply list_eq. intros i. destruct (decide (i < S (num_of mn mx))%nat).
    - rewrite lookup_replicate_2, wrows_lookup by done. f_equal. unfold dc_new, wdc_of. f_equal. apply list_eq. intros j. destruct (decide (j < S (num_of mn mx))%nat).
      + by rewrite wcounts_lookup, lookup_replicate_2 by done.
      + rewrite !lookup_ge_None_2; [done|rewrite wcounts_length|rewrite replicate_length]; lia.
    - rewrite !lookup_ge_None_2; [done|rewrite wrows_length|rewrite replicate_length]; lia. }
  split; [by apply (wlawful_undoes _ _ (bg_wlawful ml mn mx) 1)|]. intros b l H. rewrite E in H. apply history_wlawful in H as (-> & _). done.
Qed.
Print Assumptions C24_bigram.
Example C24_bigram_meets : exists b, weighted_history (bg_new 0 97 98) bg_incorporate any_weight b [("ab"%string, 1 / 2)].
Proof. eexists. eapply wh_in; [apply wh_start|done|]. vm_compute. reflexivity. Qed.

Theorem C24_gaussian_emission : undoes (Gauss 0 zm_new) (fun g x w => Ok (ga_incorporate g x w)) positive_weight /\
  forall g l, weighted_history (Gauss 0 zm_new) (fun g x w => Ok (ga_incorporate g x w)) positive_weight g l ->
    ga_N g = weight_of l /\ zm_N (ga_zmn g) = weight_of l /\ weight_of l * zm_var (ga_zmn g) = wtotal (fun x => (x.2 - x.1) * (x.2 - x.1)) l.
Proof.
  split; [by apply (wlawful_undoes _ _ ga_wlawful (1, 1))|]. intros g l H. apply (history_wlawful _ _ ga_wlawful (1, 1)) in H as (-> & Hok & _).
  cbn. unfold wga_of. cbn [ga_N ga_zmn wzm_of zm_N zm_var]. rewrite shifts_weight. split_and!; [done|done|]. rewrite <- shifts_weight, wavg_total by by apply shifts_ok.
  clear Hok. induction l as [|[x w] l IH]; [done|]. cbn [shifts map]. fold (shifts l). rewrite !wtotal_cons, IH. done.
Qed.
Print Assumptions C24_gaussian_emission.

Theorem C24_categorical_emission k : undoes (cg_new k) cg_incorporate any_weight /\
  forall c l, weighted_history (cg_new k) cg_incorporate any_weight c l ->
    cg_N c = weight_of l /\ length (cg_dists c) = k /\
    forall i d, cg_dists c !! i = Some d -> forall j, (j < k)%nat -> dc_counts d !! j = Some (wtotal (fun x => ind (x = (Z.of_nat i, Z.of_nat j))) l).
Proof.
  assert (cg_new k = wl_of (cg_wlawful k) (fun _ => 1) []) as E.
  { cbn. unfold cg_new, wcg_of. f_equal. apply list_eq. intros i. destruct (decide (i < k)%nat).
    - rewrite lookup_replicate_2, wrows_lookup by done. f_equal. unfold dc_new, wdc_of. f_equal. apply list_eq. intros j. destruct (decide (j < k)%nat).
      + by rewrite wcounts_lookup, lookup_replicate_2 by done.
      + rewrite !lookup_ge_None_2; [done|rewrite wcounts_length|rewrite replicate_length]; lia.
    - rewrite !lookup_ge_None_2; [done|rewrite wrows_length|rewrite replicate_length]; lia. }
  split; [by apply (wlawful_undoes _ _ (cg_wlawful k) (fun _ => 1))|]. intros c l H. rewrite E in H. apply history_wlawful in H as (-> & _).
  split_and!; [done|apply wrows_length|]. intros i d Hi j Hj. cbn in Hi. pose proof (lookup_lt_Some _ _ _ Hi) as Hk. rewrite wrows_length in Hk.
  rewrite wrows_lookup in Hi by done. injection Hi as <-. cbn [wdc_of dc_counts]. rewrite wcounts_lookup by done. f_equal. clear Hk.
  induction l as [|[[x y] w] l IH]; [done|]. rewrite wrow_cons, wtotal_cons, <- IH. cbn [fst snd]. unfold ind. destruct (decide (x = Z.of_nat i)) as [->|Hn].
  - rewrite wtotal_cons. destruct (decide (y = Z.of_nat j)) as [->|Hn]; [by rewrite decide_True|]. rewrite decide_False by congruence. done.
  - rewrite decide_False by congruence. lra.
Qed.
Print Assumptions C24_categorical_emission.
Example C24_categorical_emission_meets : exists c, weighted_history (cg_new 2) cg_incorporate any_weight c [((1%Z, 0%Z), 1 / 2); ((0%Z, 0%Z), 3)].
Proof. eexists. eapply wh_in; [eapply wh_in; [apply wh_start|done|reflexivity]|done|reflexivity]. Qed.

(** sometimes_bitflip and sometimes_gaussian *)
Theorem C24_sometimes {V} `{EqDecision V} (B : WEmis V) (ok : R -> Prop) (L : wlawful (we_inc B) ok) h : we_new B = wl_of L h [] ->
  undoes (sm_new B) (sm_incorporate B false) (fun w => whole_weight w /\ ok w) /\
  forall s l, weighted_history (sm_new B) (sm_incorporate B false) (fun w => whole_weight w /\ ok w) s l ->
    sm_N s = weight_of l /\ bb_N (sm_bb s) = weight_of l /\ IZR (bb_s (sm_bb s)) = wtotal (fun x => ind (x.1 <> x.2)) l /\
    weighted_history (we_new B) (we_inc B) ok (sm_be s) (filter (fun e => e.1.1 <> e.1.2) l).
Proof.
  intros E0. assert (sm_new B = wl_of (sm_wlawful B ok L) ((1, 1), h) []) as E by (unfold sm_new; by rewrite E0).
  split; [by apply (wlawful_undoes _ _ (sm_wlawful B ok L) ((1, 1), h))|]. intros s l H. rewrite E in H. apply history_wlawful in H as (-> & Hok & Hadm).
  cbn [wl_of sm_wlawful wsm_of sm_N sm_bb sm_be]. split_and!.
  - done.
  - cbn. clear. induction l as [|[x w] l IH]; [done|]. cbn [differs map]. fold (differs l). by rewrite !weight_cons, IH.
  - cbn [wbb_of bb_s]. rewrite trues_total by by apply (differs_ok ok). clear. induction l as [|[x w] l IH]; [done|]. cbn [differs map]. fold (differs l).
    rewrite !wtotal_cons, IH. cbn [fst snd]. unfold ind. destruct (bool_decide_reflect (x.1 <> x.2)); repeat first [rewrite decide_True by done | rewrite decide_False by done]; done.
  - rewrite E0. cbn [snd]. clear E E0. induction l as [|[x w] l IH]; [apply wh_start|]. apply Forall_cons in Hok as [[Hw Hb] Hok]. apply Forall_cons in Hadm as [Ha Hadm].
    unfold changed. rewrite filter_cons. cbn [fst snd] in *. fold (changed l). destruct (decide (x.1 <> x.2)) as [Hn|_]; [|by apply IH].
    eapply wh_in; [by apply IH|done|]. apply (wl_inc _ _ L); [done|by apply changed_ok|]. split; [by apply Ha|done].
Qed.
Print Assumptions C24_sometimes.
Theorem C24_sometimes_bitflip : undoes (sm_new bitflip_we) (sm_incorporate bitflip_we false) (fun w => whole_weight w /\ any_weight w).
Proof. by apply (C24_sometimes bitflip_we any_weight bf_wlawful ()). Qed.
Print Assumptions C24_sometimes_bitflip.
Theorem C24_sometimes_gaussian lg smp : undoes (sm_new (gaussian_we lg smp)) (sm_incorporate (gaussian_we lg smp) false) (fun w => whole_weight w /\ positive_weight w).
Proof. by apply (C24_sometimes (gaussian_we lg smp) positive_weight ga_wlawful (1, 1)). Qed.
Print Assumptions C24_sometimes_gaussian.
Example C24_sometimes_meets : exists s, weighted_history (sm_new bitflip_we) (sm_incorporate bitflip_we false) (fun w => whole_weight w /\ any_weight w) s
  [((true, false), 1); ((true, true), 2)].
Proof. eexists. eapply wh_in; [eapply wh_in; [apply wh_start|split; [by exists 2%Z|done]|reflexivity]|split; [by exists 1%Z|done]|reflexivity]. Qed.

(** sometimes_categorical divides the weight of an unchanged value by the probabilities at
    the time of the call: even unit weights are not undone. *)
Theorem C24_sometimes_categorical_refuted lg :
  ~ undoes (sm_new (categorical_we lg 2)) (sm_incorporate (categorical_we lg 2) true) (fun w => w = 1).
Proof.
  intros [H _].
  set (s0 := sm_new (categorical_we lg 2)) in *.
  assert (exp (bb_logp bb_new true + (ln (1 + 0) - ln (0 + 1 * 2))) = 1 / 4) as P1.
  { unfold bb_logp, bb_new. cbn [bb_N bb_alpha bb_beta bb_s]. rewrite exp_plus. unfold Rminus. rewrite !exp_plus, !exp_Ropp, !exp_ln by lra. field. }
  set (s1 := Sometimes_ (categorical_we lg 2) (0 + 1) (BB 1 1 (0 + 1 / 4 + 3 / 4) 0)
    (Categ (0 + 1 / 4) [DC 1 [0 + 1 / 4; 0] (0 + 1 / 4); dc_new 2])).
  assert (sm_incorporate (categorical_we lg 2) true s0 (0%Z, 0%Z) 1 = Ok s1) as E1.
  { unfold sm_incorporate. cbn [fst snd]. rewrite decide_True by done. cbn [s0 sm_new sm_be sm_bb sm_N categorical_we we_logp we_inc we_new].
    change (cg_logp (cg_new 2) (0%Z, 0%Z)) with (Ok (ln (1 + 0) - ln (0 + 1 * 2))). cbn [obind]. rewrite P1.
    change (cg_incorporate (cg_new 2) (0%Z, 0%Z) (1 / 4 * 1)) with (Ok (Categ (0 + 1 / 4 * 1) [DC 1 [0 + 1 / 4 * 1; 0] (0 + 1 / 4 * 1); dc_new 2])). cbn [obind].
    unfold s1. rewrite Rmult_1_r. do 2 f_equal. unfold bb_incorporate, bb_new. cbn [bb_alpha bb_beta bb_N bb_s b2r].
    rewrite (to_int_frac 0 (0 + 1 / 4 * 1)) by lra. rewrite (to_int_frac 0 (0 + (1 - 1 / 4) * 1 * 0)) by lra. f_equal. lra. }
  specialize (H s0 [] (0%Z, 0%Z) 1 s1 ltac:(apply wh_start) eq_refl E1). unfold sm_incorporate in H. cbn [fst snd] in H. rewrite decide_True in H by done.
  cbn [s1 sm_be sm_bb sm_N categorical_we we_logp we_inc] in H.
  change (cg_logp (Categ (0 + 1 / 4) [DC 1 [0 + 1 / 4; 0] (0 + 1 / 4); dc_new 2]) (0%Z, 0%Z)) with (Ok (ln (1 + (0 + 1 / 4)) - ln (0 + 1 / 4 + 1 * 2))) in H. cbn [obind] in H.
  assert (exp (bb_logp (BB 1 1 (0 + 1 / 4 + 3 / 4) 0) true + (ln (1 + (0 + 1 / 4)) - ln (0 + 1 / 4 + 1 * 2))) = 5 / 27) as P2.
  { unfold bb_logp. cbn [bb_N bb_alpha bb_beta bb_s]. rewrite exp_plus. unfold Rminus. rewrite !exp_plus, !exp_Ropp, !exp_ln by lra. field. }
  rewrite P2 in H.
  set (w := 5 / 27 * - (1)) in *.
  change (cg_incorporate (Categ (0 + 1 / 4) [DC 1 [0 + 1 / 4; 0] (0 + 1 / 4); dc_new 2]) (0%Z, 0%Z) w)
    with (Ok (Categ (0 + 1 / 4 + w) [DC 1 [0 + 1 / 4 + w; 0] (0 + 1 / 4 + w); dc_new 2])) in H. cbn [obind] in H.
  injection H. intros. unfold w in *. lra.
Qed.
Print Assumptions C24_sometimes_categorical_refuted.

Theorem C24_simple_string : undoes ss_new ss_incorporate whole_weight.
Proof. by apply (wlawful_undoes _ _ ss_wlawful (((1, 1), (1, 1)), (1, 1))). Qed.
Print Assumptions C24_simple_string.
Example C24_simple_string_meets : exists s, weighted_history ss_new ss_incorporate whole_weight s [((txt "kitten", txt "sitting"), 1); ((txt "", txt "a"), 2)].
Proof.
  change ss_new with (wss_of (((1, 1), (1, 1)), (1, 1)) []).
  eexists. eapply wh_in; [eapply wh_in; [apply wh_start|by exists 2%Z|apply wss_inc; by exists 2%Z]|by exists 1%Z|apply wss_inc; by exists 1%Z].
Qed.
