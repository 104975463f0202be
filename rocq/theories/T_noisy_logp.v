(** Theorems about the probability a noisy relation gives to a value: C75. *)
From Coq Require Import String Ascii.
From stdpp Require Import gmap strings sorting.
From Coq Require Import ZArith Reals Lra Lia.
From Verif Require Import M_base M_math M_crp M_domain M_dist M_distributions M_relation M_noisy M_irm M_emissions M_logp M_rel_logp M_noisy_logp
  S_math S_crp S_crp_state S_relation S_dist S_irm S_logp S_latent S_score S_rel_approx S_rel_logp
  P_base P_math P_sum P_crp P_domain P_relation P_dist P_reached P_irm_gibbs P_irm_pos P_score P_rel_logp P_rel_approx P_noisy P_beta_bernoulli P_emission_laws
  P_noisy_logp T_emissions T_score T_rel_logp T_rel_approx T_latent.
Local Open Scope R_scope.
Local Arguments Rprod : simpl never.

(** * C75 *)
(** NoisyRelation::logp.  The probability reported is the sum, over all ways of
    choosing for every position of the items one of the clusters its entity can
    have, of the product of the probabilities of the choices times the probability
    that the emission object of the block they name turns the value [bv] of the
    base relation into [v]. *)
Theorem C75_mixture {V} : forall W A (n : noisy V) b items bv v,
  let rel := n_rel n in
  world_holds W A -> positive W -> (forall d, d ∈ r_doms rel -> d ∈ dom A) -> r_doms rel <> [] -> fresh_fixed rel ->
  length items = length (r_doms rel) -> (bv_arity b <= length items)%nat -> bv_data b !! take (bv_arity b) items = Some bv ->
  exists opts,
    Forall2 (fun de l => exists dm a, W !! de.1 = Some dm /\ A !! de.1 = Some a /\
      cluster_options (crp_alpha (dom_crp dm)) a de.2 l) (zip (r_doms rel) items) opts /\ forall r,
    ((exists st, noisy_logp W n b items v r = Ok st) <->
       Forall (fun ch : list (Z * R) => is_Some (block_lik rel ch.*1 (bv, v))) (cartesian opts)) /\
    (forall lp r', noisy_logp W n b items v r = Ok (lp, r') ->
      eexp lp = Rsum ((fun ch : list (Z * R) => Rprod ch.*2 * default 0 (block_lik rel ch.*1 (bv, v))) <$> cartesian opts)).
Proof.
  intros W A n b items bv v rel HW Hp Hd Hne Hfr Hl Ha Hb.
  destruct (C72_mixture (em_dist (n_em n)) W A rel items (bv, v) HW Hp Hd Hne Hfr Hl) as (opts & H2 & H). exists opts. split; [done|].
  intros r. unfold noisy_logp. rewrite (proj2 (base_value_Ok b items bv) (conj Ha Hb)). cbn [obind]. exact (H r).
Qed.
Print Assumptions C75_mixture.

(** Only items over a tuple the base relation has a value for are scored; items too
    short for the base are read past their end. *)
Theorem C75_needs_base {V} : forall W (n : noisy V) b items v r,
  (forall st, noisy_logp W n b items v r = Ok st -> length items = length (r_doms (n_rel n)) /\ is_Some (bv_data b !! take (bv_arity b) items)) /\
  ((bv_arity b <= length items)%nat -> bv_data b !! take (bv_arity b) items = None -> noisy_logp W n b items v r = AssertFail) /\
  ((length items < bv_arity b)%nat -> noisy_logp W n b items v r = UB).
Proof.
  intros W n b items v r. split_and!.
  - intros st H. unfold noisy_logp in H. apply obind_Ok in H as (bv & [_ Hb]%base_value_Ok & H). split; [|by eexists].
    unfold rel_logp in H. apply obind_Ok in H as (u & Hl & _). by apply assert_Ok, bool_decide_eq_true in Hl.
  - intros Hl Hn. unfold noisy_logp, get_base_value, get_base_items, base_get_value. rewrite bool_decide_eq_true_2 by done. cbn [obind].
    rewrite bool_decide_eq_false_2; [done|]. by apply not_elem_of_dom.
  - intros Hl. unfold noisy_logp, get_base_value, get_base_items. by rewrite bool_decide_eq_false_2 by lia.
Qed.
Print Assumptions C75_needs_base.

(** If the entities have clusters, the answer is what incorporating the value adds
    to the score of the relation (also for clean relations). *)
Theorem C75_logp_is_score_increase {V} : forall lg W A (n : noisy V) (L : rlawful (em_dist (n_em n))) b items v z r W' n' r' r1 lp r2,
  is_lgamma lg -> world_holds W A -> positive W -> rel_holds L A (n_rel n) -> scores_predictively (em_dist (n_em n)) ->
  fresh_fixed (n_rel n) -> r_doms (n_rel n) <> [] -> block_of A (r_doms (n_rel n)) items = Some z ->
  noisy_logp W n b items v r1 = Ok (lp, r2) -> noisy_incorporate W n b items v r = Ok (W', n', r') ->
  lp = Some (noisy_logp_score n' - noisy_logp_score n).
Proof.
  intros lg W A n L b items v z r W' n' r' r1 lp r2 Hlg HW Hp Hrel Hsp Hfr Hne Hz Hlp Hi.
  unfold noisy_logp in Hlp. apply obind_Ok in Hlp as (bv & Hbv & Hlp).
  unfold get_base_value in Hbv. apply obind_Ok in Hbv as (bi & Hbi & Hbv).
  unfold noisy_incorporate in Hi. rewrite Hbi in Hi. cbn [obind] in Hi. rewrite Hbv in Hi. cbn [obind] in Hi.
  apply obind_Ok in Hi as ([[W1 rel1] r3] & Hi & [= <- <- <-]). unfold noisy_logp_score. cbn [n_set n_em n_rel].
  exact (rel_logp_score_increase L lg W A (n_rel n) items (bv, v) z r W1 rel1 r3 r1 lp r2 Hlg HW Hp Hrel Hsp Hfr Hne Hz Hlp Hi).
Qed.
Print Assumptions C75_logp_is_score_increase.
Theorem C72_logp_is_score_increase {V} : forall lg (D : Dist V) (L : rlawful D) W A (rel : relation D) items v z r W' rel' r' r1 lp r2,
  is_lgamma lg -> world_holds W A -> positive W -> rel_holds L A rel -> scores_predictively D ->
  fresh_fixed rel -> r_doms rel <> [] -> block_of A (r_doms rel) items = Some z ->
  rel_logp D W rel items v r1 = Ok (lp, r2) -> rel_incorporate D W rel items v r = Ok (W', rel', r') ->
  lp = Some (rel_logp_score D rel' - rel_logp_score D rel).
Proof.
  intros lg D L W A rel items v z r W' rel' r' r1 lp r2 Hlg HW Hp Hrel Hsp Hfr Hne Hz Hlp Hi.
  exact (rel_logp_score_increase L lg W A rel items v z r W' rel' r' r1 lp r2 Hlg HW Hp Hrel Hsp Hfr Hne Hz Hlp Hi).
Qed.
Print Assumptions C72_logp_is_score_increase.

Lemma sb_blocks_total lg A (L : rlawful (em_dist (sometimes_bitflip lg))) (rel : relation (em_dist (sometimes_bitflip lg))) bv : rel_holds L A rel ->
  forall z, exists p q, block_lik rel z (bv, bv) = Some p /\ block_lik rel z (bv, negb bv) = Some q /\ p + q = 1.
Proof.
  intros Hrel z.
  assert (exists l, dist_history (em_dist (sometimes_bitflip lg)) (default (d_new (em_dist (sometimes_bitflip lg)) (r_spec rel) []).1 (r_clusters rel !! z)) l) as [l Hl].
  { destruct (r_clusters rel !! z) as [s|] eqn:Es; [by eapply block_history|]. exists []. exact (hist_new (em_dist (sometimes_bitflip lg)) (r_spec rel) []). }
  unfold block_lik. revert Hl. generalize (default (d_new (em_dist (sometimes_bitflip lg)) (r_spec rel) []).1 (r_clusters rel !! z)). intros s Hl.
  destruct (C50_sometimes_bitflip_sums_to_one lg s l bv Hl) as (p & q & E1 & E2 & E & _).
  exists (exp p), (exp q). cbn [d_logp em_dist sometimes_bitflip sometimes_emis]. rewrite E1, E2. done.
Qed.

(** Whatever was put into a noisy relation of bits that are sometimes flipped: both
    values of a new observation can be scored, and their probabilities sum to one. *)
Theorem C75_total_bitflip : forall lg sp ds base W b n data A items bv,
  noisy_reach (sometimes_bitflip lg) sp ds base W b n data -> world_holds W A -> positive W ->
  length items = length ds -> bv_data b !! take (bv_arity b) items = Some bv ->
  (forall d, d ∈ ds -> exists a, A !! d = Some a /\ a <> ∅) ->
  forall r, exists lt lf r1 r2, noisy_logp W n b items true r = Ok (lt, r1) /\ noisy_logp W n b items false r = Ok (lf, r2) /\
    eexp lt + eexp lf = 1.
Proof.
  intros lg sp ds base W b n data A items bv Hr HW Hp Hl Hbv Hents r.
  destruct (noisy_history _ (sb_lawful lg) sp ds base W b n data Hr) as (He & _ & Hds & Hk & _ & _ & A' & HW' & Hn).
  pose proof (noisy_reach_doms _ _ _ _ _ _ _ _ Hr) as Hne.
  rewrite (world_clustering _ _ _ HW' HW) in Hn. clear HW' A' Hr. destruct Hn as ([L Hrel] & _).
  destruct n as [E nd nb m rel]. cbn [n_em n_rel] in *. subst E ds.
  assert (fresh_fixed rel) as Hfr by done.
  assert (forall v, exists lp r', noisy_logp W (Noisy (sometimes_bitflip lg) nd nb m rel) b items v r = Ok (lp, r')) as Hs.
  { intros v. destruct (C75_mixture W A (Noisy (sometimes_bitflip lg) nd nb m rel) b items bv v HW Hp (rh_doms _ _ _ Hrel) Hne Hfr Hl) as (opts & _ & Hs); [by rewrite Hl|done|].
    destruct (proj2 (proj1 (Hs r))) as [[lp r'] H]; [|eauto]. apply Forall_forall. intros ch _.
    destruct (sb_blocks_total lg A L rel bv Hrel ch.*1) as (p & q & E1 & E2 & _). destruct (decide (v = bv)) as [->|Hv]; [by eexists|].
    assert (v = negb bv) as -> by by destruct v, bv. by eexists. }
  destruct (Hs true) as (lt & r1 & H1), (Hs false) as (lf & r2 & H2). exists lt, lf, r1, r2. split_and!; [done..|].
  unfold noisy_logp in H1, H2. apply obind_Ok in H1 as (x & [_ Hx]%base_value_Ok & H1). apply obind_Ok in H2 as (y & [_ Hy]%base_value_Ok & H2).
  assert (x = bv) as -> by congruence. assert (y = bv) as -> by congruence. cbn [n_em n_rel] in H1, H2.
  pose proof (C72_total (em_dist (sometimes_bitflip lg)) W A rel items [(bv, true); (bv, false)] [lt; lf] HW Hp (rh_doms _ _ _ Hrel) Hne Hfr Hl) as H.
  rewrite !fmap_cons, fmap_nil, !Rsum_cons, Rsum_nil, Rplus_0_r in H. apply H.
  - intros z. rewrite !fmap_cons, fmap_nil, !Rsum_cons, Rsum_nil. destruct (sb_blocks_total lg A L rel bv Hrel z) as (p & q & E1 & E2 & E).
    destruct bv; cbn [negb] in *; rewrite E1, E2; cbn; lra.
  - intros d e Hde. apply Hents. by apply elem_of_zip_l in Hde.
  - repeat constructor; eauto.
Qed.
Print Assumptions C75_total_bitflip.

(** The approximate reassignment scores of a noisy relation are those of its pairs
    (base value, value), and asking for them changes nothing. *)
Theorem C75_approximate_scores {V} : forall W A (n : noisy V) (L : lawful (em_dist (n_em n))) ord d e t r lp n' r',
  world_holds W A -> rel_holds L A (n_rel n) -> order_ok ord ->
  noisy_logp_gibbs_approx W n ord d e t r = Ok (lp, n', r') ->
  n' = n /\ exists cur lps, seat A d e = Some cur /\
    Forall2 (fun k l => (t = cur -> own_logp A (n_rel n) k l) /\ (t <> cur -> moved_logp A (n_rel n) d e t k l))
      (elements (observations_of (r_doms (n_rel n)) (r_data (n_rel n)) d e)) lps /\ lp = lp_sum lps.
Proof.
  intros W A n L ord d e t r lp n' r' HW Hrel Ho H. unfold noisy_logp_gibbs_approx in H. apply obind_Ok in H as ([[x rel'] r1] & H & [= <- <- <-]).
  rewrite (C73_scoring_is_pure _ L _ _ _ _ _ _ _ _ _ _ _ HW Hrel Ho H). split; [by destruct n|]. by eapply (C73_meaning _ L).
Qed.
Print Assumptions C75_approximate_scores.

(** A noisy relation over the base tuples (1) and (2) with one observation, a flipped
    bit: another flip in its block then has probability 2/3. *)
Example C75_example : forall lg, exists W n A,
  noisy_reach (sometimes_bitflip lg) tt ["d"%string; "c"%string] "r"%string W C17_base n (<[[1; 7]%Z := false]> ∅) /\
  world_holds W A /\ positive W /\ (forall d, d ∈ ["d"%string; "c"%string] -> exists a, A !! d = Some a /\ a <> ∅) /\
  bv_data C17_base !! take (bv_arity C17_base) [1; 8]%Z = Some true /\
  (exists L : rlawful (em_dist (n_em n)), rel_holds L A (n_rel n)) /\ is_Some (block_of A (r_doms (n_rel n)) [1; 7]%Z) /\
  forall r, exists lp r', noisy_logp W n C17_base [1; 7]%Z false r = Ok (lp, r') /\ eexp lp = 2 / 3.
Proof.
  intros lg. destruct C17_world_holds as (A0 & HW0 & HA0).
  assert (positive C17_world) as Hp0.
  { intros d dm Hd. unfold C17_world in Hd. apply lookup_insert_Some in Hd as [[_ <-]|[_ [_ <-]%lookup_singleton_Some]]; cbn; lra. }
  destruct (rel_new_holds (reached_law (sb_lawful lg)) A0 ["d"%string; "c"%string] tt) as (rel0 & Erel & Hrel0 & Hdat0 & Hd0); [done|by apply Forall_forall|].
  set (n0 := Noisy (sometimes_bitflip lg) ∅ "r"%string ∅ rel0).
  assert (noisy_reach (sometimes_bitflip lg) tt ["d"%string; "c"%string] "r"%string C17_world C17_base n0 ∅) as Hr0.
  { eapply nr_new; [exact HW0|exact HA0|cbn; lia|]. unfold noisy_new, n0. rewrite Erel. done. }
  assert (r_clusters rel0 = ∅) as Hc0. { by injection Erel as <-. }
  destruct (incorporate_items_spec (reached_law (sb_lawful lg)) C17_world A0 rel0 [1; 7]%Z [] HW0 Hrel0) as (W & idx & r1 & A & z & h0 & Ei & HW & Hext & Hz & _ & r0 & Hr); [by rewrite Hd0|by rewrite Hdat0|].
  rewrite Hc0, lookup_empty in Ei. cbn [default from_option] in Ei. rewrite <- Hr in Ei.
  set (c1 := Sometimes_ bitflip_we (0 + 1) (bb_incorporate bb_new true 1) (0 + 1)).
  assert (exists rel1 r2, rel_incorporate (em_dist (sometimes_bitflip lg)) C17_world rel0 [1; 7]%Z (true, false) [] = Ok (W, rel1, r2) /\
    r_doms rel1 = ["d"%string; "c"%string] /\ r_clusters rel1 = {[ z := c1 ]}) as (rel1 & r2 & Hi & Hd1 & Hc1).
  { unfold rel_incorporate. rewrite Ei. cbn [obind r_clusters set_data]. rewrite lookup_insert. cbn [at_ obind].
    eexists _, _. split; [reflexivity|]. cbn [set_clusters set_data r_doms r_clusters]. split; [exact Hd0|]. by rewrite insert_insert. }
  set (n := n_set n0 (<[[1; 7]%Z := false]> ∅) (b2n_insert ∅ [1]%Z [1; 7]%Z) rel1).
  assert (noisy_incorporate C17_world n0 C17_base [1; 7]%Z false [] = Ok (W, n, r2)) as Hn.
  { unfold noisy_incorporate. cbn [n_em n_rel n0]. change (get_base_items C17_base [1; 7]%Z) with (Ok [1]%Z). cbn [obind].
    change (base_get_value C17_base [1]%Z) with (Ok true). cbn [obind]. setoid_rewrite Hi. done. }
  pose proof (nr_incorporate _ _ _ _ _ _ _ _ _ _ _ _ _ _ Hr0 Hn) as Hr1.
  pose proof (rel_incorporate_positive _ _ _ _ _ _ _ _ _ Hp0 Hi) as Hp.
  destruct (rel_incorporate_spec (reached_law (sb_lawful lg)) C17_world A0 rel0 [1; 7]%Z (true, false) [] HW0 Hrel0) as (W2 & A2 & rel2 & r3 & H2 & HW2 & Hrel2 & _);
    [by rewrite Hd0|by rewrite Hdat0|cbn; done|].
  rewrite Hi in H2. injection H2 as <- <- <-. rewrite (world_clustering _ _ _ HW2 HW) in Hrel2. clear HW2 A2.
  assert (forall d e, (d, e) ∈ [("d"%string, 1%Z); ("c"%string, 7%Z)] -> is_Some (seat A d e)) as Hk.
  { intros d e Hde. rewrite Hd0 in Hz. destruct (proj1 (block_of_is_Some _ _ _) (ex_intro _ z Hz)) as [_ Hk]. by apply Hk. }
  rewrite Hd0 in Hz.
  assert (forall d, d ∈ ["d"%string; "c"%string] -> exists a, A !! d = Some a /\ a <> ∅) as Hne.
  { assert (forall d e, (d, e) ∈ [("d"%string, 1%Z); ("c"%string, 7%Z)] -> exists a, A !! d = Some a /\ a <> ∅) as Ha.
    { intros d e [t Ht]%Hk. unfold seat in Ht. destruct (A !! d) as [a|]; [|done]. exists a. split; [done|]. intros ->. done. }
    intros d Hd. apply elem_of_cons in Hd as [->|Hd]; [apply (Ha _ 1%Z); left|]. apply elem_of_list_singleton in Hd as ->. apply (Ha _ 7%Z). right; left. }
  exists W, n, A. split; [exact Hr1|]. split; [done|]. split; [done|]. split; [done|]. split_and!.
  - done.
  - by exists (reached_law (sb_lawful lg)).
  - change (is_Some (block_of A (r_doms rel1) [1; 7]%Z)). rewrite Hd1, Hz. by eexists.
  - intros r.
    destruct (C75_total_bitflip lg _ _ _ _ _ _ _ A [1; 7]%Z true Hr1 HW Hp eq_refl eq_refl Hne r) as (lt & lf & q1 & q2 & _ & Hlf & _).
    exists lf, q2. split; [done|]. change (rel_logp (em_dist (sometimes_bitflip lg)) W rel1 [1; 7]%Z (true, false) r = Ok (lf, q2)) in Hlf.
    assert (block_lik rel1 z (true, false) = Some (eexp lf)) as Hb.
    { eapply (C72_known_entities _ W A rel1); [done|done|exact (rh_doms _ _ _ Hrel2)|by rewrite Hd1|done|by rewrite Hd1|exact Hlf]. }
    unfold block_lik in Hb. rewrite Hc1, lookup_singleton in Hb. injection Hb as <-. unfold c1. cbn [sm_bb].
    change bb_new with (bb_of (exist _ (1, 1) ones_11) []). rewrite bb_inc_of. unfold bb_logp, bb_of. cbn [bb_N bb_s bb_alpha bb_beta proj1_sig fst snd length INR].
    change (IZR (Z.of_nat (occurrences true [true]))) with 1. cbn [eexp].
    unfold Rminus. rewrite !exp_plus, exp_Ropp, exp_0, !exp_ln by lra. field.
Qed.
