(** The emissions are lawful: every theorem about relations and models holds with them. *)
From Coq Require Import ZArith Reals Ascii Lra.
From stdpp Require Import list gmap.
From Coq Require Import Lia.
From Verif Require Import M_base M_text M_math M_dist M_distributions M_noisy M_emissions
  S_math S_dist S_relation S_emissions P_base P_math P_dist P_beta_bernoulli P_dirichlet P_normal P_weights P_emissions.
Local Open Scope R_scope.

Definition ones {X} (l : list X) : list (X * R) := map (fun x => (x, 1)) l.
Lemma ones_weight {X} (l : list X) : weight_of (ones l) = INR (length l).
Proof. induction l as [|x l IH]; [done|]. cbn [ones map length]. fold (ones l). rewrite weight_cons, IH, S_INR. lra. Qed.
Lemma ones_ok {X} (ok : R -> Prop) (l : list X) : ok 1 -> Forall (fun e => ok e.2) (ones l).
Proof. intros H. apply Forall_map. by apply Forall_true. Qed.

(** An emission object used with weights 1 and -1. *)
Section weighted.
Context {X S : Type} (inc : S -> X -> R -> outcome S) (ok : R -> Prop) (L : wlawful inc ok).
Context (s0 : S) (N : S -> R) (logp : S -> X -> outcome (option R)) (score : S -> R)
  (resample : S -> rng -> outcome (S * rng)).
Definition wdist : Dist X := {|
  d_spec := unit; d_state := S; d_new := fun _ r => (s0, r);
  d_N_zero := fun s => R_is_zero (N s); d_N_pos := fun s => R_is_pos (N s);
  d_inc := fun s x => inc s x 1; d_uninc := fun s x => inc s x (-1);
  d_logp := logp; d_score := score;
  d_sample := fun _ _ => Exits; d_resample := resample; d_nearest := fun _ x => Ok x |}.
Definition wdist_lawful (good : wl_hyp L -> Prop) (H1 : ok 1) (h0 : wl_hyp L) (G0 : good h0) (H0 : s0 = wl_of L h0 [])
    (HN : forall h l, N (wl_of L h l) = weight_of l)
    (HR : forall h l r s r', good h -> resample (wl_of L h l) r = Ok (s, r') -> exists h', good h' /\ s = wl_of L h' l)
    (HS : forall h, score (wl_of L h []) = 0) : lawful wdist.
Proof.
  refine {| law_hyp := sig good; law_of := fun h l => wl_of L (`h) (ones l) : d_state wdist; law_adm := wl_adm L |}.
  - intros h l l' HP. apply (wl_perm _ _ L). unfold ones. by rewrite HP.
  - intros h l v s' _. cbn [wdist d_inc]. rewrite (wl_inc _ _ L); [done|done|by apply ones_ok].
  - intros h l v Ha. apply Forall_cons in Ha as [Ha _]. cbn [wdist d_uninc]. replace (-1) with (- (1)) by lra. apply (wl_uninc _ _ L); [done|by apply ones_ok|done].
  - intros h l. cbn [wdist d_N_zero]. rewrite HN, ones_weight. apply R_is_zero_INR.
  - intros h l. cbn [wdist d_N_pos]. rewrite HN, ones_weight. apply R_is_pos_INR.
  - intros sp r. exists (exist _ h0 G0). exact H0.
  - intros [h G] l r s r' _ E. destruct (HR _ _ _ _ _ G E) as (h' & G' & ->). by exists (exist _ h' G').
  - intros [h G]. apply HS.
Defined.
End weighted.

Definition positive2 (h : R * R) : Prop := 0 < h.1 /\ 0 < h.2.
Lemma whole_1 : whole_weight 1. Proof. by exists 1%Z. Qed.
Lemma weight_nil {X} : weight_of ([] : list (X * R)) = 0. Proof. done. Qed.
Lemma wbb_score_empty lg h : bb_score lg (wbb_of h []) = 0.
Proof. unfold bb_score, wbb_of. cbn [bb_alpha bb_beta bb_N bb_s]. change (weight_of []) with 0. change (trues []) with 0%Z. rewrite Rplus_0_l. replace (0 - 0 + h.2) with h.2 by lra. lra. Qed.
Lemma wzm_score_empty lg h : zm_score lg (wzm_of h []) = 0.
Proof. destruct h as [a b]. exact (zm_score_empty lg a b). Qed.
Lemma wbb_transition lg h l r b r' : bb_transition lg (wbb_of h l) r = Ok (b, r') -> exists h', positive2 h' /\ b = wbb_of h' l.
Proof.
  unfold bb_transition. intros E. apply obind_Ok in E as (g & Hg & E). apply obind_Ok in E as ([h1 r1] & E & [= <- <-]).
  apply grid_transition_Ok in E. exists h1. split; [exact (bb_grid_pos g Hg h1 E)|done].
Qed.
Lemma wzm_transition lg h l r z r' : zm_transition lg (wzm_of h l) r = Ok (z, r') -> exists h', positive2 h' /\ z = wzm_of h' l.
Proof.
  unfold zm_transition. intros E. apply obind_Ok in E as ([h1 r1] & E & [= <- <-]). apply grid_transition_Ok in E.
  exists h1. split; [exact (zm_grid_pos h1 E)|done].
Qed.
Lemma ones_11 : positive2 (1, 1). Proof. split; cbn; lra. Qed.

Lemma wbb_new : bb_new = wbb_of (1, 1) []. Proof. done. Qed.
Definition ga_lawful lg smp : lawful (em_dist (gaussian_emis lg smp)).
Proof.
  refine (wdist_lawful (fun g x w => Ok (ga_incorporate g x w)) positive_weight ga_wlawful _ ga_N _ (ga_score lg) (ga_transition lg) positive2 Rlt_0_1 (1, 1) ones_11 _ _ _ _).
  - done.
  - done.
  - intros h l r s r' _ E. unfold ga_transition in E. apply obind_Ok in E as ([z r1] & E & [= <- <-]). apply wzm_transition in E as (h' & G & ->). by exists h'.
  - intros h. apply (wzm_score_empty lg h).
Defined.

Definition sb_lawful lg : lawful (em_dist (sometimes_bitflip lg)).
Proof.
  refine (wdist_lawful (sm_incorporate bitflip_we false) (both any_weight) (sm_wlawful bitflip_we any_weight bf_wlawful) _ sm_N _ (sm_score bitflip_we lg) (sm_transition bitflip_we lg)
    (fun h => positive2 h.1) _ ((1, 1), ()) ones_11 _ _ _ _).
  - split; [apply whole_1|done].
  - done.
  - done.
  - intros [h []] l r s r' _ E. unfold sm_transition in E. cbn [wl_of sm_wlawful wsm_of sm_be sm_bb sm_N we_trans bitflip_we obind] in E.
    apply obind_Ok in E as ([b r1] & E & [= <- <-]). apply wbb_transition in E as (h' & G & ->). by exists (h', ()).
  - intros h. unfold sm_score. cbn [wl_of sm_wlawful wsm_of sm_bb sm_be we_score bitflip_we]. rewrite wbb_score_empty. lra.
Defined.

Definition sg_lawful lg smp : lawful (em_dist (sometimes_gaussian lg smp)).
Proof.
  refine (wdist_lawful (sm_incorporate (gaussian_we lg smp) false) (both positive_weight) (sm_wlawful (gaussian_we lg smp) positive_weight ga_wlawful) _ sm_N _
    (sm_score (gaussian_we lg smp) lg) (sm_transition (gaussian_we lg smp) lg)
    (fun h => positive2 h.1 /\ positive2 h.2) _ ((1, 1), (1, 1)) (conj ones_11 ones_11) _ _ _ _).
  - split; [apply whole_1|exact Rlt_0_1].
  - done.
  - done.
  - intros [h hb] l r s r' _ E. unfold sm_transition in E. apply obind_Ok in E as ([be r0] & Eb & E).
    apply obind_Ok in E as ([b r1] & E & [= <- <-]). apply wbb_transition in E as (h' & G & ->).
    cbn in Eb. unfold ga_transition in Eb. apply obind_Ok in Eb as ([z r2] & Eb & [= <- <-]). apply wzm_transition in Eb as (hb' & Gb & ->). by exists (h', hb').
  - intros h. unfold sm_score. cbn [wl_of sm_wlawful wsm_of sm_bb sm_be we_score gaussian_we]. rewrite wbb_score_empty. rewrite Rplus_0_l. exact (wzm_score_empty lg h.2).
Defined.

Definition ss_lawful lg : lawful (em_dist (simple_string_emis lg)).
Proof.
  refine (wdist_lawful ss_incorporate whole_weight ss_wlawful _ ss_N _ (ss_score lg) (ss_transition lg)
    (fun h => positive2 h.1.1 /\ positive2 h.1.2 /\ positive2 h.2) whole_1 (((1, 1), (1, 1)), (1, 1)) (conj ones_11 (conj ones_11 ones_11)) _ _ _ _).
  - done.
  - done.
  - intros h l r s r' _ E. unfold ss_transition in E. apply obind_Ok in E as ([a r0] & Ea & E). apply obind_Ok in E as ([b r1] & Eb & E).
    apply obind_Ok in E as ([c r2] & Ec & [= <- <-]).
    apply wbb_transition in Ea as (ha & Ga & ->). apply wbb_transition in Eb as (hb & Gb & ->). apply wbb_transition in Ec as (hc & Gc & ->).
    by exists (ha, hb, hc).
  - intros h. unfold ss_score. cbn [wl_of ss_wlawful wss_of simple_of ss_sub ss_ins ss_del all_trials map concat]. rewrite !wbb_score_empty. change (bb_s (wbb_of h.1.1 []) + bb_s (wbb_of h.1.2 []))%Z with 0%Z. lra.
Defined.
