(** C73: the approximate scores of an entity's clusters. *)
From stdpp Require Import gmap strings sorting.
From Coq Require Import ZArith Reals Lra Lia.
From Verif Require Import M_base M_math M_crp M_domain M_dist M_distributions M_relation M_noisy M_irm M_logp M_rel_logp
  S_math S_crp S_crp_state S_dist S_relation S_irm S_score S_rel_approx P_base P_math P_sum P_domain P_relation P_relation_score P_relation_gibbs
  P_relation_history P_relation_refuted P_dist P_beta_bernoulli P_reached P_rel_approx T_score.
Local Open Scope R_scope.

(** A call leaves the relation as it was. *)
Theorem C73_scoring_is_pure {V} (D : Dist V) (L : lawful D) : forall W A rel ord d e t r lp rel' r',
  world_holds W A -> rel_holds L A rel -> order_ok ord ->
  logp_gibbs_approx D W rel ord d e t r = Ok (lp, rel', r') -> rel' = rel.
Proof. intros W A rel ord d e t r lp rel' r' HW Hrel Ho H. by destruct (approx_spec L W A rel ord d e t r lp rel' r' HW Hrel Ho H) as [-> _]. Qed.
Print Assumptions C73_scoring_is_pure.

(** The answer is the sum over the entity's observations of the log probability of
    each value on its own: given the other values of its block for the entity's own
    cluster, given the block it would join for another cluster. *)
Theorem C73_meaning {V} (D : Dist V) (L : lawful D) : forall W A rel ord d e t r lp rel' r',
  world_holds W A -> rel_holds L A rel -> order_ok ord ->
  logp_gibbs_approx D W rel ord d e t r = Ok (lp, rel', r') ->
  exists cur lps, seat A d e = Some cur /\
    Forall2 (fun k l => (t = cur -> own_logp A rel k l) /\ (t <> cur -> moved_logp A rel d e t k l))
      (elements (observations_of (r_doms rel) (r_data rel) d e)) lps /\ lp = lp_sum lps.
Proof.
  intros W A rel ord d e t r lp rel' r' HW Hrel Ho H.
  destruct (approx_spec L W A rel ord d e t r lp rel' r' HW Hrel Ho H) as (_ & cur & lps & Hs & _ & HF & ->).
  destruct (Permutation_Forall2 (Ho (observations_of (r_doms rel) (r_data rel) d e)) HF) as (lps' & Hp & HF').
  exists cur, lps'. split; [done|]. split; [|by apply lp_sum_perm].
  eapply Forall2_impl; [exact HF'|]. intros k l Hk. case_decide as Et; by split.
Qed.
Print Assumptions C73_meaning.

(** For a class that scores predictively a call succeeds exactly for the entities the
    relation has observations of, and the score is finite. *)
Theorem C73_total {V} (D : Dist V) (L : rlawful D) : forall W A rel ord d e t r,
  scores_predictively D -> world_holds W A -> rel_holds L A rel -> order_ok ord ->
  ((exists st, logp_gibbs_approx D W rel ord d e t r = Ok st) <-> observations_of (r_doms rel) (r_data rel) d e <> ∅) /\
  forall lp rel' r', logp_gibbs_approx D W rel ord d e t r = Ok (lp, rel', r') -> exists x, lp = Some x.
Proof.
  intros W A rel ord d e t r Hsc HW Hrel Ho.
  assert (observations_of (r_doms rel) (r_data rel) d e <> ∅ -> exists lp r', logp_gibbs_approx D W rel ord d e t r = Ok (Some lp, rel, r')) as Hs.
  { intros Hne. pose proof Hne as Hne'. apply set_choose_L in Hne' as [k Hk]. apply elem_of_observations in Hk as [[v Hv] Hm].
    destruct (rh_known _ _ _ Hrel k v Hv) as [Hb _]. apply block_of_is_Some in Hb as [_ Hb]. destruct (Hb d e Hm) as [cur Hcur].
    by apply (approx_succeeds L Hsc W A rel ord d e t r cur). }
  split; [split|].
  - intros [[[lp rel'] r'] H]. by destruct (approx_spec L W A rel ord d e t r lp rel' r' HW Hrel Ho H) as (_ & cur & lps & _ & Hne & _).
  - intros (lp & r' & H)%Hs. by eexists.
  - intros lp rel' r' H. destruct (approx_spec L W A rel ord d e t r lp rel' r' HW Hrel Ho H) as (_ & cur & lps & _ & Hne & _).
    destruct (Hs Hne) as (x & r2 & E). rewrite E in H. injection H as <- _ _. by eexists.
Qed.
Print Assumptions C73_total.

(** The answer is the exact score if every observation of the entity is alone among
    them in its block. *)
Theorem C73_exact_if_separate {V} (D : Dist V) (L : rlawful D) :
  forall W A rel ord mord ord' d e t ts lps rel1 r r1 i x lp rel2 r2 r3,
  scores_predictively D -> (forall r r', (d_new D (r_spec rel) r).1 = (d_new D (r_spec rel) r').1) ->
  world_holds W A -> rel_holds L A rel -> order_ok ord -> map_order_ok mord -> order_ok ord' ->
  (forall k k', k ∈ observations_of (r_doms rel) (r_data rel) d e -> k' ∈ observations_of (r_doms rel) (r_data rel) d e ->
     block_of A (r_doms rel) k = block_of A (r_doms rel) k' -> k = k') ->
  logp_gibbs_exact D W rel ord mord d e ts r = Ok (lps, rel1, r1) -> ts !! i = Some t -> lps !! i = Some x ->
  logp_gibbs_approx D W rel ord' d e t r2 = Ok (lp, rel2, r3) -> lp = Some x.
Proof.
  intros W A rel ord mord ord' d e t ts lps rel1 r r1 i x lp rel2 r2 r3 Hsc Hfix HW Hrel Ho Hmo Ho' Hsep Hex Ht Hx Hap.
  exact (approx_exact L Hsc W A rel ord mord ord' d e t ts lps rel1 r r1 i x lp rel2 r2 r3 HW Hrel Ho Hmo Ho' Hfix Hsep Hex Ht Hx Hap).
Qed.
Print Assumptions C73_exact_if_separate.

(** * Two observations in one block *)
Definition C73_A : clustering := {[ "a"%string := {[ 1%Z := 0%Z ]}; "b"%string := {[ 1%Z := 0%Z; 2%Z := 0%Z ]} ]}.
Definition C73_data : gmap items_t bool := {[ [1; 1]%Z := true; [1; 2]%Z := true ]}.
Definition C73_ds := ["a"; "b"]%string.

Lemma C73_domains : exists da db, foldM dom_do dom_new [DIncorporate 1 0 []] = Ok da /\
  foldM dom_do dom_new [DIncorporate 1 0 []; DIncorporate 2 0 []] = Ok db /\ world_holds {[ "a"%string := da; "b"%string := db ]} C73_A.
Proof.
  assert ((let* dm := foldM dom_do dom_new [DIncorporate 1 0 []] in Ok (crp_assignments (dom_crp dm))) = Ok {[ 1%Z := 0%Z ]}) as H by by_compute.
  apply obind_Ok in H as (da & Hda & [= Ha]). apply dom_history in Hda as H. destruct H as [a Hh].
  pose proof (hs_assign _ _ (proj2 Hh)) as E. rewrite Ha in E. subst a.
  assert ((let* dm := foldM dom_do dom_new [DIncorporate 1 0 []; DIncorporate 2 0 []] in Ok (crp_assignments (dom_crp dm)))
    = Ok {[ 1%Z := 0%Z; 2%Z := 0%Z ]}) as H by by_compute.
  apply obind_Ok in H as (db & Hdb & [= Hb]). apply dom_history in Hdb as H. destruct H as [b Hh'].
  pose proof (hs_assign _ _ (proj2 Hh')) as E. rewrite Hb in E. subst b.
  exists da, db. split_and!; [done..|]. intros d. unfold C73_A. destruct (decide (d = "a"%string)) as [->|]; [by rewrite !lookup_insert|].
  rewrite !lookup_insert_ne by done. destruct (decide (d = "b"%string)) as [->|]; [by rewrite !lookup_singleton|]. by rewrite !lookup_singleton_ne.
Qed.
Lemma C73_block k : k ∈ [[1; 1]; [1; 2]]%Z -> block_of C73_A C73_ds k = Some [0; 0]%Z.
Proof. intros [->|[->|[]%elem_of_nil]%elem_of_cons]%elem_of_cons; by_compute. Qed.
Lemma C73_data_lookup k v : C73_data !! k = Some v <-> k ∈ [[1; 1]; [1; 2]]%Z /\ v = true.
Proof.
  unfold C73_data. rewrite lookup_insert_Some, lookup_singleton_Some, elem_of_cons, elem_of_list_singleton.
  split; [naive_solver|]. intros [[->| ->] ->]; [by left|]. right. done.
Qed.

Section Run.
  Context (lg : R -> R).
  Local Notation D := (bb_dist lg).
  Local Notation L := (bb_lawful lg).

  Lemma C73_run_spec W : world_holds W C73_A ->
    exists rel0 W1 rel1 W2 rel, rel_new D C73_ds tt = Ok rel0 /\
      rel_do (W, rel0) (RIncorporate [1; 1]%Z true []) = Ok (W1, rel1) /\
      rel_do (W1, rel1) (RIncorporate [1; 2]%Z true []) = Ok (W2, rel) /\
      world_holds W2 C73_A /\ rel_holds L C73_A rel /\ r_doms rel = C73_ds /\ r_data rel = C73_data /\
      blocks_hold L (fun _ => C11_h) (block_of C73_A C73_ds) C73_data (r_clusters rel).
  Proof.
    intros HW.
    assert (forall sp r, (d_new D sp r).1 = law_of L C11_h []) as Hf by done.
    destruct (rel_new_holds L C73_A C73_ds tt) as (rel0 & Hn & Hrel0 & Hd0 & Hds0).
    { done. }
    { intros d [->|[->|[]%elem_of_nil]%elem_of_cons]%elem_of_cons; apply elem_of_dom; by eexists. }
    assert (blocks_hold L (fun _ => C11_h) (block_of C73_A (r_doms rel0)) (r_data rel0) (r_clusters rel0)) as Hb0.
    { unfold rel_new in Hn. simpl in Hn. injection Hn as <-. simpl. intros z. by rewrite values_in_empty, lookup_empty. }
    assert (forall k A', k ∈ [[1; 1]; [1; 2]]%Z -> clustering_extends C73_A A' (zip C73_ds k) -> A' = C73_A) as Hext.
    { intros k A' Hk He. eapply clustering_extends_known; [done|]. intros d e Hin.
      pose proof (C73_block k Hk) as Hbl. assert (is_Some (block_of C73_A C73_ds k)) as [_ H]%block_of_is_Some by eauto.
      by apply H. }
    destruct (rel_incorporate_spec L W C73_A rel0 [1; 1]%Z true [] HW Hrel0) as (W1 & A1 & rel1 & r1 & H1 & _).
    { by rewrite Hds0. } { by rewrite Hd0. } { done. }
    destruct (rel_incorporate_const L C11_h Hf _ _ _ _ _ _ _ _ _ HW Hrel0 Hb0 H1) as (A1' & HW1 & Hrel1 & Hds1 & Hd1 & He1 & Hb1).
    rewrite Hds0 in He1, Hds1. apply Hext in He1 as ->; [|by left]. rewrite Hds0 in Hb1. rewrite <- Hds1 in Hb1.
    destruct (rel_incorporate_spec L W1 C73_A rel1 [1; 2]%Z true [] HW1 Hrel1) as (W2 & A2 & rel2 & r2 & H2 & _).
    { by rewrite Hds1. } { rewrite Hd1, Hd0. by_compute. } { done. }
    destruct (rel_incorporate_const L C11_h Hf _ _ _ _ _ _ _ _ _ HW1 Hrel1 Hb1 H2) as (A2' & HW2 & Hrel2 & Hds2 & Hd2 & He2 & Hb2).
    rewrite Hds1 in He2, Hds2, Hb2. apply Hext in He2 as ->; [|by right; left].
    assert (r_data rel2 = C73_data) as Hdata by (rewrite Hd2, Hd1, Hd0; by_compute).
    rewrite Hdata in Hb2.
    exists rel0, W1, rel1, W2, rel2. split_and!; try done; unfold rel_do; [rewrite H1|rewrite H2]; reflexivity.
  Qed.
End Run.

Lemma C73_setup lg : exists da db rel0 W (rel : relation (bb_dist lg)),
    foldM dom_do dom_new [DIncorporate 1 0 []] = Ok da /\ foldM dom_do dom_new [DIncorporate 1 0 []; DIncorporate 2 0 []] = Ok db /\
    rel_new (bb_dist lg) ["a"; "b"]%string tt = Ok rel0 /\
    foldM rel_do ({[ "a"%string := da; "b"%string := db ]}, rel0) [RIncorporate [1; 1]%Z true []; RIncorporate [1; 2]%Z true []] = Ok (W, rel) /\
    world_holds W C73_A /\ rel_holds (bb_lawful lg) C73_A rel /\ r_doms rel = C73_ds /\ r_data rel = C73_data /\
    blocks_hold (bb_lawful lg) (fun _ => C11_h) (block_of C73_A C73_ds) C73_data (r_clusters rel).
Proof.
  destruct C73_domains as (da & db & Hda & Hdb & HW0).
  destruct (C73_run_spec lg _ HW0) as (rel0 & W1 & rel1 & W & rel & Hn & H1 & H2 & HW & Hrel & Hds & Hdata & Hb).
  exists da, db, rel0, W, rel. split_and!; try done. cbn [foldM]. setoid_rewrite H1. cbn [obind]. setoid_rewrite H2. done.
Qed.
Lemma C73_rholds lg (rel : relation (bb_dist lg)) : rel_holds (bb_lawful lg) C73_A rel -> r_doms rel = C73_ds -> r_data rel = C73_data ->
  blocks_hold (bb_lawful lg) (fun _ => C11_h) (block_of C73_A C73_ds) C73_data (r_clusters rel) ->
  rel_holds (reached_law (bb_lawful lg)) C73_A rel.
Proof.
  intros [Hd Hk Hi _] Hds Hdata Hb. split; [done|done|done|].
  assert (dist_history (bb_dist lg) (law_of (bb_lawful lg) C11_h []) []) as Hh. { exact (hist_new (bb_dist lg) tt []). }
  exists (fun _ => exist _ C11_h Hh). rewrite Hds, Hdata. exact Hb.
Qed.

Lemma C73_values : values_in (block_of C73_A C73_ds) C73_data [0; 0]%Z = [true; true].
Proof. by_compute. Qed.
Lemma C73_values_other g z : (forall k, k ∈ [[1; 1]; [1; 2]]%Z -> g k <> Some z) -> values_in g C73_data z = [].
Proof. intros Hg. apply values_in_nil. intros k v [Hk _]%C73_data_lookup. by apply Hg. Qed.
Lemma C73_observations : observations_of C73_ds C73_data "a" 1 = {[ [1; 1]; [1; 2] ]}%Z.
Proof. by_compute. Qed.
Lemma C73_moved k : k ∈ [[1; 1]; [1; 2]]%Z -> block_of (clustering_move C73_A "a" 1 1) C73_ds k = Some [1; 0]%Z.
Proof. intros [->|[->|[]%elem_of_nil]%elem_of_cons]%elem_of_cons; by_compute. Qed.

Lemma Forall2_same {X} (P : X -> option R -> Prop) c l lps : (forall k lp, k ∈ l -> P k lp -> lp = Some c) -> Forall2 P l lps ->
  lp_sum lps = Some (INR (length l) * c).
Proof.
  intros HP HF. induction HF as [|k lp l lps Hk HF IH]; [simpl; f_equal; lra|].
  rewrite lp_sum_cons, (HP k lp (elem_of_list_here _ _) Hk), IH by (intros; eapply HP; [by right|done]).
  f_equal. change (length (k :: l)) with (Datatypes.S (length l)). rewrite S_INR. lra.
Qed.

(** The class Beta-Bernoulli with both parameters 1; two values true, both of entity 1
    of domain a, in one block.  Moving the entity to a cluster of its own leaves the
    joint probability of the data as it is, so the two exact scores are equal.  The
    approximate scores count each value as evidence for the other: twice ln(2/3) for
    its own cluster, twice ln(1/2) for the new one. *)
Theorem C73_refuted : forall lg, is_lgamma lg ->
  exists da db rel0 W rel A,
    foldM dom_do dom_new [DIncorporate 1 0 []] = Ok da /\ foldM dom_do dom_new [DIncorporate 1 0 []; DIncorporate 2 0 []] = Ok db /\
    rel_new (bb_dist lg) ["a"; "b"]%string tt = Ok rel0 /\
    foldM rel_do ({[ "a"%string := da; "b"%string := db ]}, rel0) [RIncorporate [1; 1]%Z true []; RIncorporate [1; 2]%Z true []] = Ok (W, rel) /\
    world_holds W A /\ rel_holds (bb_lawful lg) A rel /\ seat A "a" 1 = Some 0%Z /\
    forall ord mord r, order_ok ord -> map_order_ok mord -> exists x r1 r2 r3,
      logp_gibbs_exact (bb_dist lg) W rel ord mord "a" 1 [0; 1]%Z r = Ok ([x; x], rel, r1) /\
      logp_gibbs_approx (bb_dist lg) W rel ord "a" 1 0 r = Ok (Some (2 * ln (2 / 3)), rel, r2) /\
      logp_gibbs_approx (bb_dist lg) W rel ord "a" 1 1 r = Ok (Some (2 * ln (1 / 2)), rel, r3) /\
      2 * ln (1 / 2) < 2 * ln (2 / 3).
Proof.
  intros lg Hlg. destruct (C73_setup lg) as (da & db & rel0 & W & rel & Hda & Hdb & Hn & Hrun & HW & Hrel & Hds & Hdata & Hb).
  exists da, db, rel0, W, rel, C73_A. split_and!; try done. intros ord mord r Ho Hmo.
  pose proof (C73_rholds lg rel Hrel Hds Hdata Hb) as Hrl. pose proof (C63_beta_bernoulli lg Hlg) as Hsc.
  assert (observations_of (r_doms rel) (r_data rel) "a" 1 = {[ [1; 1]; [1; 2] ]}%Z) as Hobs by (rewrite Hds, Hdata; apply C73_observations).
  assert (observations_of (r_doms rel) (r_data rel) "a" 1 <> ∅) as Hne. { rewrite Hobs. set_solver. }
  assert (seat C73_A "a" 1 = Some 0%Z) as Hseat by by_compute.
  assert (length (ord ({[ [1; 1]; [1; 2] ]}%Z)) = 2%nat) as Hlen. { rewrite (Ho _). by_compute. }
  assert (forall k, k ∈ ord ({[ [1; 1]; [1; 2] ]}%Z) -> k ∈ [[1; 1]; [1; 2]]%Z) as Hin.
  { intros k. rewrite (Ho _), elem_of_elements. set_solver. }
  pose proof (Hb [0; 0]%Z) as Hc0. rewrite C73_values in Hc0.
  assert (r_clusters rel !! [1; 0]%Z = None) as Hc1. { rewrite (Hb [1; 0]%Z), C73_values_other; [done|]. intros k Hk. by rewrite (C73_block k Hk). }
  destruct (approx_succeeds (reached_law (bb_lawful lg)) Hsc W C73_A rel ord "a" 1 0 r 0 HW Hrl Ho Hseat Hne) as (l0 & r2 & H0).
  destruct (approx_succeeds (reached_law (bb_lawful lg)) Hsc W C73_A rel ord "a" 1 1 r 0 HW Hrl Ho Hseat Hne) as (l1 & r3 & H1).
  pose proof H0 as H0'. apply (approx_spec (bb_lawful lg) W C73_A rel ord "a" 1 0 r _ _ _ HW Hrel Ho) in H0' as (_ & cur & lps0 & Hs0 & _ & HF0 & E0).
  rewrite Hseat in Hs0. injection Hs0 as <-. rewrite decide_True in HF0 by done. rewrite Hobs in HF0.
  pose proof H1 as H1'. apply (approx_spec (bb_lawful lg) W C73_A rel ord "a" 1 1 r _ _ _ HW Hrel Ho) in H1' as (_ & cur & lps1 & Hs1 & _ & HF1 & E1).
  rewrite Hseat in Hs1. injection Hs1 as <-. rewrite decide_False in HF1 by done. rewrite Hobs in HF1.
  apply (Forall2_same _ (ln (2 / 3))) in HF0. 2:{
    intros k lp Hk (v & z & c & s & Hv & Hz & Hc & Hu & Hl). rewrite Hds, (C73_block k (Hin k Hk)) in Hz. injection Hz as <-.
    rewrite Hdata in Hv. apply C73_data_lookup in Hv as [_ ->]. rewrite Hc0 in Hc. injection Hc as <-.
    pose proof (law_uninc _ (bb_lawful lg) C11_h [true] true) as Hu2. cbn [law_of bb_lawful] in Hu2. rewrite Hu2 in Hu.
    - injection Hu as <-. cbn [d_logp bb_dist] in Hl. injection Hl as <-. f_equal. unfold bb_logp. simpl.
      change (IZR (Z.of_nat (occurrences true [true]))) with 1. unfold Rdiv. rewrite ln_mult, ln_Rinv by lra.
      replace (1 + 1 + 1) with 3 by lra. replace (1 + 1) with 2 by lra. lra.
    - repeat constructor. }
  apply (Forall2_same _ (ln (1 / 2))) in HF1. 2:{
    intros k lp Hk (v & z & s & Hv & Hz & Hc & Hl). rewrite Hds, (C73_moved k (Hin k Hk)) in Hz. injection Hz as <-.
    rewrite Hdata in Hv. apply C73_data_lookup in Hv as [_ ->]. rewrite Hc1 in Hc. destruct Hc as [Hc|[_ [r0 ->]]]; [done|].
    cbn [d_logp bb_dist] in Hl. injection Hl as <-. f_equal. unfold bb_logp. simpl.
    unfold Rdiv. rewrite ln_mult, ln_Rinv by lra. rewrite ?Rplus_0_l. replace (1 + 1) with 2 by lra. lra. }
  rewrite Hlen in HF0, HF1. replace (INR 2) with 2 in HF0, HF1 by (simpl; lra). rewrite HF0 in E0. rewrite HF1 in E1. rewrite E0 in H0. rewrite E1 in H1.
  assert (exists m s, r_data_r rel !! "a" = Some m /\ m !! 1%Z = Some s) as (m & s & Hm & Hs).
  { pose proof (rh_index _ _ _ Hrel "a") as Hi. destruct (r_data_r rel !! "a") as [m|].
    - destruct Hi as [_ Hi]. exists m. eexists. split; [done|]. rewrite (Hi 1%Z). by rewrite decide_False.
    - destruct Hi. rewrite Hds. left. }
  assert (blocks_hold (bb_lawful lg) (fun _ => C11_h) (block_of C73_A (r_doms rel)) (r_data rel) (r_clusters rel)) as Hb' by by rewrite Hds, Hdata.
  destruct (logp_gibbs_exact_spec (bb_lawful lg) W C73_A rel (fun _ => C11_h) ord mord "a" 1 [0; 1]%Z r m s 0 HW Hrel Ho Hmo Hb' Hm Hs Hseat)
    as (lps & r1 & gs & Hex & (Hnd & Hgs & Hcov) & HF).
  assert (exists il, gs = [([0; 0]%Z, il)] /\ (forall k, k ∈ il <-> k ∈ [[1; 1]; [1; 2]]%Z) /\ NoDup il) as (il & -> & Hil & Hndil).
  { assert (forall z il, (z, il) ∈ gs -> z = [0; 0]%Z) as Hz.
    { intros z il Hzi. destruct (Hgs z il Hzi) as (vals & (Hne' & _ & _ & Hblk) & Hel). destruct il as [|k il]; [done|].
      destruct (proj1 (Hel k) (elem_of_list_here _ _)) as ([v Hv] & _ & Hbk). rewrite Hdata in Hv. apply C73_data_lookup in Hv as [Hk _].
      rewrite Hds, (C73_block k Hk) in Hbk. by injection Hbk. }
    destruct (Hcov [1; 1]%Z) as (z & il & Hzi & _). { rewrite Hdata. by eexists. } { rewrite Hds. left. }
    destruct gs as [|[z1 il1] gs]; [by apply elem_of_nil in Hzi|]. destruct gs as [|[z2 il2] gs].
    - pose proof (Hz z1 il1 (elem_of_list_here _ _)) as ->. exists il1. split; [done|].
      destruct (Hgs [0; 0]%Z il1 (elem_of_list_here _ _)) as (vals & (_ & Hnd1 & _) & Hel). split; [|done].
      intros k. rewrite Hel. rewrite Hds, Hdata. split.
      + intros ([v Hv] & _ & _). by apply C73_data_lookup in Hv as [? _].
      + intros Hk. split_and!; [exists true; by apply C73_data_lookup| |by apply C73_block].
        apply elem_of_cons in Hk as [->|Hk]; [left|]. apply elem_of_list_singleton in Hk as ->. left.
    - exfalso. apply NoDup_cons in Hnd as [Hnd _]. apply Hnd. pose proof (Hz z1 il1 (elem_of_list_here _ _)) as ->.
      pose proof (Hz z2 il2 (elem_of_list_further _ _ _ (elem_of_list_here _ _))) as ->. left. }
  assert (il ≡ₚ [[1; 1]; [1; 2]]%Z) as Hpil. { apply NoDup_Permutation; [done|apply (bool_decide_unpack _); vm_compute; exact I|done]. }
  assert (forall vals, mapM (fun k => r_data rel !! k) il = Some vals -> vals = [true; true]) as Hvals.
  { intros vals Hmv. apply mapM_Some in Hmv. pose proof (Forall2_length _ _ _ Hmv) as Hl. rewrite (Permutation_length Hpil) in Hl. simpl in Hl.
    assert (Forall (eq true) vals) as Ht.
    { apply Forall_forall. intros v Hv. apply elem_of_list_lookup in Hv as [j Hj]. destruct (Forall2_lookup_r _ _ _ _ _ Hmv Hj) as (k & _ & Hk).
      rewrite Hdata in Hk. by apply C73_data_lookup in Hk as [_ ->]. }
    destruct vals as [|v1 [|v2 [|? ?]]]; try done. apply Forall_cons in Ht as [<- Ht]. by apply Forall_cons in Ht as [<- _]. }
  inversion HF as [|? x ? ? (xs & -> & HC0) HF']; subst. inversion HF' as [|? y ? ? (ys & -> & HC1) HF'']; subst. inversion HF''; subst. clear HF HF' HF''.
  inversion HC0 as [|? x ? ? (vals & (_ & _ & Hmv & _) & Hx) HN]; subst. inversion HN; subst. clear HC0 HN.
  inversion HC1 as [|? y ? ? (vals' & (_ & _ & Hmv' & _) & Hy) HN]; subst. inversion HN; subst. clear HC1 HN.
  cbn [fst snd] in *. apply Hvals in Hmv as ->. apply Hvals in Hmv' as ->. rewrite decide_True in Hx by done. rewrite decide_False in Hy by done.
  destruct Hy as (k0 & z' & r0 & Hk0 & Hz' & Hy).
  assert (k0 ∈ [[1; 1]; [1; 2]]%Z) as Hk0'. { apply Hil. by eapply elem_of_list_lookup_2. }
  rewrite Hds, (C73_moved k0 Hk0') in Hz'. injection Hz' as <-. specialize (Hy C11_h).
  rewrite Hds, Hdata in Hx, Hy. rewrite C73_values in Hx. rewrite (C73_values_other _ [1; 0]%Z) in Hy by (intros k Hk; by rewrite (C73_block k Hk)).
  assert (values_in (block_of C73_A C73_ds) (without C73_data il) [0; 0]%Z = []) as Ew.
  { apply values_in_nil. intros k v Hk. rewrite without_lookup in Hk. case_decide as Hki; [done|]. exfalso. apply Hki, Hil. by apply C73_data_lookup in Hk as [? _]. }
  rewrite Ew in Hx. assert (y = x) as ->. { rewrite Hx. rewrite Hy; [by rewrite app_nil_r|]. unfold target_hyp. by rewrite Hc1. }
  exists (Rsum [x]), r1, r2, r3. split_and!; [done|done|done|].
  apply Rmult_lt_compat_l; [lra|]. apply ln_increasing; lra.
Qed.
Print Assumptions C73_refuted.

(** The hypotheses of the theorems above hold in that state, for entity 2 of domain b, which
    has one observation. *)
Example C73_example : forall lg, is_lgamma lg -> exists W (rel : relation (bb_dist lg)) A,
  scores_predictively (bb_dist lg) /\ (forall r r', (d_new (bb_dist lg) (r_spec rel) r).1 = (d_new (bb_dist lg) (r_spec rel) r').1) /\
  world_holds W A /\ rel_holds (reached_law (bb_lawful lg)) A rel /\ size (r_data rel) = 2%nat /\ seat A "b" 2 = Some 0%Z /\
  observations_of (r_doms rel) (r_data rel) "b" 2 = {[ [1; 2]%Z ]} /\
  forall ord mord t r, order_ok ord -> map_order_ok mord -> exists x lp r1 r2,
    logp_gibbs_exact (bb_dist lg) W rel ord mord "b" 2 [t] r = Ok ([x], rel, r1) /\
    logp_gibbs_approx (bb_dist lg) W rel ord "b" 2 t r = Ok (lp, rel, r2) /\ lp = Some x.
Proof.
  intros lg Hlg. destruct (C73_setup lg) as (da & db & rel0 & W & rel & _ & _ & _ & _ & HW & Hrel & Hds & Hdata & Hb).
  pose proof (C73_rholds lg rel Hrel Hds Hdata Hb) as Hrl. pose proof (C63_beta_bernoulli lg Hlg) as Hsc.
  assert (observations_of (r_doms rel) (r_data rel) "b" 2 = {[ [1; 2]%Z ]}) as Hobs. { rewrite Hds, Hdata. by_compute. }
  assert (seat C73_A "b" 2 = Some 0%Z) as Hseat by by_compute.
  exists W, rel, C73_A. split_and!; try done. { by rewrite Hdata. }
  intros ord mord t r Ho Hmo.
  destruct (proj2 (proj1 (C73_total (bb_dist lg) (reached_law (bb_lawful lg)) W C73_A rel ord "b" 2 t r Hsc HW Hrl Ho))) as [[[lp rel2] r2] Ha].
  { rewrite Hobs. set_solver. }
  pose proof (C73_scoring_is_pure _ _ _ _ _ _ _ _ _ _ _ _ _ HW Hrl Ho Ha) as ->.
  assert (exists m s, r_data_r rel !! "b" = Some m /\ m !! 2%Z = Some s) as (m & s & Hm & Hs).
  { pose proof (rh_index _ _ _ Hrel "b") as Hi. destruct (r_data_r rel !! "b") as [m|].
    - destruct Hi as [_ Hi]. exists m. eexists. split; [done|]. rewrite (Hi 2%Z). rewrite decide_False; [done|]. rewrite Hobs. set_solver.
    - destruct Hi. rewrite Hds. right. left. }
  destruct (rh_blocks _ _ _ Hrel) as [hh Hbb].
  destruct (logp_gibbs_exact_spec (bb_lawful lg) W C73_A rel hh ord mord "b" 2 [t] r m s 0 HW Hrel Ho Hmo Hbb Hm Hs Hseat) as (lps & r1 & gs & Hex & _ & HF).
  inversion HF as [|? x ? l _ HF']; subst. inversion HF'; subst. exists x, lp, r1, r2. split_and!; [done|done|].
  refine (C73_exact_if_separate (bb_dist lg) (reached_law (bb_lawful lg)) W C73_A rel ord mord ord "b" 2 t [t] [x] rel r r1 0 x lp rel r r2 Hsc _ HW Hrl Ho Hmo Ho _ Hex eq_refl eq_refl Ha).
  - done.
  - rewrite Hobs. intros k k' ->%elem_of_singleton ->%elem_of_singleton _. done.
Qed.
