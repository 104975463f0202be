(** The concrete run behind the refutation of C11 for repeated domains. *)
From stdpp Require Import gmap strings list.
From Coq Require Import ZArith Reals Lra Lia.
From Verif Require Import M_base M_math M_crp M_domain M_dist M_distributions M_relation S_math S_crp S_crp_state S_relation S_dist
  P_base P_math P_sum P_domain P_relation P_relation_score P_relation_gibbs P_relation_history P_dist P_beta_bernoulli.

Lemma clustering_extends_known A A' P :
  clustering_extends A A' P -> (forall d e, (d, e) ∈ P -> is_Some (seat A d e)) -> A' = A.
Proof.
  intros (Hd & Hk & Hn) HP. apply map_eq. intros d.
  assert (forall e, seat A' d e = seat A d e) as Hs.
  { intros e. destruct (seat A d e) as [t|] eqn:E; [by apply Hk|].
    destruct (seat A' d e) as [t|] eqn:E'; [|done].
    destruct (Hn d e) as [[? ?]|Hin]; [eauto|congruence|]. destruct (HP d e Hin); congruence. }
  destruct (A' !! d) as [a'|] eqn:E', (A !! d) as [a|] eqn:E.
  - f_equal. apply map_eq. intros e. specialize (Hs e). unfold seat in Hs. by rewrite E, E' in Hs.
  - apply not_elem_of_dom in E. apply elem_of_dom_2 in E'. congruence.
  - apply not_elem_of_dom in E'. apply elem_of_dom_2 in E. congruence.
  - done.
Qed.

Definition C11_A : clustering := {[ "d"%string := {[ 1%Z := 0%Z; 2%Z := 0%Z ]} ]}.
Definition C11_data : gmap items_t bool := {[ [1; 2]%Z := true; [2; 1]%Z := true ]}.
Definition C11_ds := ["d"; "d"]%string.

Lemma C11_domain : exists dm, foldM dom_do dom_new [DIncorporate 1 0 []; DIncorporate 2 0 []] = Ok dm /\
  world_holds {[ "d"%string := dm ]} C11_A.
Proof.
  assert ((let* dm := foldM dom_do dom_new [DIncorporate 1 0 []; DIncorporate 2 0 []] in Ok (crp_assignments (dom_crp dm)))
    = Ok {[ 1%Z := 0%Z; 2%Z := 0%Z ]}) as H by by_compute.
  apply obind_Ok in H as (dm & Hdm & [= Ha]). exists dm. split; [done|].
  apply dom_history in Hdm as [a Hh]. pose proof (hs_assign _ _ (proj2 Hh)) as E. rewrite Ha in E. subst a.
  intros d. unfold C11_A. destruct (decide (d = "d"%string)) as [->|]; [by rewrite !lookup_singleton|].
  by rewrite !lookup_singleton_ne.
Qed.

Lemma C11_block k : k ∈ [[1; 2]; [2; 1]]%Z -> block_of C11_A C11_ds k = Some [0; 0]%Z.
Proof. intros [->|[->|[]%elem_of_nil]%elem_of_cons]%elem_of_cons; by_compute. Qed.
Lemma C11_data_lookup k v : C11_data !! k = Some v <-> k ∈ [[1; 2]; [2; 1]]%Z /\ v = true.
Proof.
  unfold C11_data. rewrite lookup_insert_Some, lookup_singleton_Some, elem_of_cons, elem_of_list_singleton.
  split; [naive_solver|]. intros [[->| ->] ->]; [by left|]. right. done.
Qed.

Section Run.
  Context (lg : R -> R) (Hlg : is_lgamma lg).
  Local Notation D := (bb_dist lg).
  Local Notation L := (bb_lawful lg).
  Definition C11_h : pos2 := exist _ (1, 1)%R (conj Rlt_0_1 Rlt_0_1).

  Lemma C11_scores :
    bb_score lg (bb_of C11_h [true]) = ln (1 / 2) /\ bb_score lg (bb_of C11_h [true; true]) = ln (1 / 3).
  Proof.
    pose proof (bb_score_empty lg C11_h) as H0.
    pose proof (bb_chain lg C11_h [] true Hlg) as H1. pose proof (bb_chain lg C11_h [true] true Hlg) as H2.
    assert (bb_logp (bb_of C11_h []) true = ln (1 / 2)) as E1.
    { unfold bb_logp. simpl. change (IZR (Z.of_nat (occurrences true []))) with 0%R.
      replace (1 / 2)%R with (1 * / 2)%R by lra. rewrite ln_mult, ln_Rinv by lra. 
      replace (0 + 1 + 1)%R with 2%R by lra. replace (0 + 1)%R with 1%R by lra. lra. }
    assert (bb_logp (bb_of C11_h [true]) true = ln (2 / 3)) as E2.
    { unfold bb_logp. simpl. change (IZR (Z.of_nat (occurrences true [true]))) with 1%R.
      unfold Rdiv. rewrite ln_mult, ln_Rinv by lra.
      replace (1 + 1 + 1)%R with 3%R by lra. replace (1 + 1)%R with 2%R by lra. lra. }
    rewrite E1 in H1. rewrite E2 in H2. split; [lra|].
    replace (1 / 3)%R with (2 / 3 * (1 / 2))%R by lra. rewrite ln_mult by lra. lra.
  Qed.

  Lemma C11_run_spec W : world_holds W C11_A ->
    exists rel0 W1 rel1 W2 rel, rel_new D C11_ds tt = Ok rel0 /\
      rel_do (W, rel0) (RIncorporate [1; 2]%Z true []) = Ok (W1, rel1) /\
      rel_do (W1, rel1) (RIncorporate [2; 1]%Z true []) = Ok (W2, rel) /\
      world_holds W2 C11_A /\ rel_holds L C11_A rel /\ r_doms rel = C11_ds /\ r_data rel = C11_data /\
      blocks_hold L (fun _ => C11_h) (block_of C11_A C11_ds) C11_data (r_clusters rel).
  Proof.
    intros HW.
    assert (forall sp r, (d_new D sp r).1 = law_of L C11_h []) as Hf by done.
    destruct (rel_new_holds L C11_A C11_ds tt) as (rel0 & Hn & Hrel0 & Hd0 & Hds0).
    { done. }
    { intros d [->|[->|[]%elem_of_nil]%elem_of_cons]%elem_of_cons; apply elem_of_dom; by eexists. }
    assert (blocks_hold L (fun _ => C11_h) (block_of C11_A (r_doms rel0)) (r_data rel0) (r_clusters rel0)) as Hb0.
    { unfold rel_new in Hn. simpl in Hn. injection Hn as <-. simpl. intros z. by rewrite values_in_empty, lookup_empty. }
    assert (forall k A', k ∈ [[1; 2]; [2; 1]]%Z -> clustering_extends C11_A A' (zip C11_ds k) -> A' = C11_A) as Hext.
    { intros k A' Hk He. eapply clustering_extends_known; [done|]. intros d e Hin.
      pose proof (C11_block k Hk) as Hbl. assert (is_Some (block_of C11_A C11_ds k)) as [_ H]%block_of_is_Some by eauto.
      by apply H. }
    destruct (rel_incorporate_spec L W C11_A rel0 [1; 2]%Z true [] HW Hrel0) as (W1 & A1 & rel1 & r1 & H1 & _).
    { by rewrite Hds0. } { by rewrite Hd0. } { done. }
    destruct (rel_incorporate_const L C11_h Hf _ _ _ _ _ _ _ _ _ HW Hrel0 Hb0 H1) as (A1' & HW1 & Hrel1 & Hds1 & Hd1 & He1 & Hb1).
    rewrite Hds0 in He1, Hds1. apply Hext in He1 as ->; [|by left]. rewrite Hds0 in Hb1. rewrite <- Hds1 in Hb1.
    destruct (rel_incorporate_spec L W1 C11_A rel1 [2; 1]%Z true [] HW1 Hrel1) as (W2 & A2 & rel2 & r2 & H2 & _).
    { by rewrite Hds1. } { rewrite Hd1, Hd0. by_compute. } { done. }
    destruct (rel_incorporate_const L C11_h Hf _ _ _ _ _ _ _ _ _ HW1 Hrel1 Hb1 H2) as (A2' & HW2 & Hrel2 & Hds2 & Hd2 & He2 & Hb2).
    rewrite Hds1 in He2, Hds2, Hb2. apply Hext in He2 as ->; [|by right; left].
    assert (r_data rel2 = C11_data) as Hdata by (rewrite Hd2, Hd1, Hd0; by_compute).
    rewrite Hdata in Hb2.
    exists rel0, W1, rel1, W2, rel2. split_and!; try done; unfold rel_do; [rewrite H1|rewrite H2]; reflexivity.
  Qed.

  Lemma C11_values_other g z : (forall k, k ∈ [[1; 2]; [2; 1]]%Z -> g k <> Some z) -> values_in g C11_data z = [].
  Proof. intros Hg. apply values_in_nil. intros k v [Hk _]%C11_data_lookup. by apply Hg. Qed.

  Lemma C11_values : values_in (block_of C11_A C11_ds) C11_data [0; 0]%Z = [true; true].
  Proof. by_compute. Qed.
  Lemma C11_values_moved :
    values_in (block_of (clustering_move C11_A "d" 1 1) C11_ds) C11_data [1; 0]%Z = [true] /\
    values_in (block_of (clustering_move C11_A "d" 1 1) C11_ds) C11_data [0; 1]%Z = [true].
  Proof. split; by_compute. Qed.

  (** Scores before and after. *)
  Lemma C11_score_before (rel : relation D) :
    blocks_hold L (fun _ => C11_h) (block_of C11_A C11_ds) C11_data (r_clusters rel) ->
    rel_logp_score D rel = ln (1 / 3).
  Proof.
    intros Hb. rewrite rel_logp_score_sum.
    rewrite (sum_map_cover (d_score D) (r_clusters rel) [[0; 0]%Z]).
    - rewrite fmap_cons, Rsum_cons, fmap_nil, Rsum_nil, (Hb [0; 0]%Z), C11_values.
      change (d_score D (law_of L C11_h [true; true])) with (bb_score lg (bb_of C11_h [true; true])).
      rewrite (proj2 C11_scores). lra.
    - apply NoDup_singleton.
    - intros z [c Hc]. rewrite (Hb z) in Hc. destruct (decide (z = [0; 0]%Z)) as [->|Hne]; [left|].
      rewrite C11_values_other in Hc; [done|]. intros k Hk. rewrite (C11_block k Hk). congruence.
  Qed.
  Lemma C11_score_after (rel : relation D) :
    blocks_hold L (fun _ => C11_h) (block_of (clustering_move C11_A "d" 1 1) C11_ds) C11_data (r_clusters rel) ->
    rel_logp_score D rel = ln (1 / 4).
  Proof.
    intros Hb. rewrite rel_logp_score_sum.
    rewrite (sum_map_cover (d_score D) (r_clusters rel) [[1; 0]%Z; [0; 1]%Z]).
    - rewrite !fmap_cons, !Rsum_cons, fmap_nil, Rsum_nil, (Hb [1; 0]%Z), (Hb [0; 1]%Z).
      rewrite (proj1 C11_values_moved), (proj2 C11_values_moved).
      change (d_score D (law_of L C11_h [true])) with (bb_score lg (bb_of C11_h [true])).
      rewrite (proj1 C11_scores). replace (1 / 4)%R with (1 / 2 * (1 / 2))%R by lra. rewrite ln_mult by lra. lra.
    - apply (bool_decide_unpack _). vm_compute. exact I.
    - intros z [c Hc]. rewrite (Hb z) in Hc.
      destruct (decide (z ∈ [[1; 0]%Z; [0; 1]%Z])) as [|Hne]; [done|].
      rewrite !elem_of_cons in Hne. rewrite C11_values_other in Hc; [done|].
      intros k [->|[->|[]%elem_of_nil]%elem_of_cons]%elem_of_cons.
      + assert (block_of (clustering_move C11_A "d" 1 1) C11_ds [1; 2]%Z = Some [1; 0]%Z) as -> by by_compute. naive_solver.
      + assert (block_of (clustering_move C11_A "d" 1 1) C11_ds [2; 1]%Z = Some [0; 1]%Z) as -> by by_compute. naive_solver.
  Qed.

  Lemma C11_refutation W rel ord mord ord' lps rel1 r r1 r2 rel' r' :
    world_holds W C11_A -> rel_holds L C11_A rel -> r_doms rel = C11_ds -> r_data rel = C11_data ->
    blocks_hold L (fun _ => C11_h) (block_of C11_A C11_ds) C11_data (r_clusters rel) ->
    order_ok ord -> map_order_ok mord -> order_ok ord' ->
    logp_gibbs_exact D W rel ord mord "d" 1 [1; 0]%Z r = Ok (lps, rel1, r1) ->
    rel_set_cluster D W rel ord' "d" 1 1 r2 = Ok (rel', r') ->
    exists x y, lps = [x; y] /\ (x - y = 0)%R /\
      (rel_logp_score D rel' - rel_logp_score D rel = ln (3 / 4))%R.
  Proof.
    intros HW Hrel Hds Hdata Hb Ho Hmo Ho' Hex Hset.
    assert (seat C11_A "d" 1 = Some 0%Z) as Hseat by done.
    destruct (rel_set_cluster_inv W C11_A rel ord' "d" 1 1 r2 _ HW Hset) as (cur & m & s & Hc & Hne & Hm & Hs).
    assert (blocks_hold L (fun _ => C11_h) (block_of C11_A (r_doms rel)) (r_data rel) (r_clusters rel)) as Hbr
      by by rewrite Hds, Hdata.
    destruct (logp_gibbs_exact_spec L W C11_A rel _ ord mord "d" 1 [1; 0]%Z r m s 0%Z HW Hrel Ho Hmo Hbr Hm Hs Hseat)
      as (lps' & r'' & gs & Hex' & Hgs & HF).
    rewrite Hex in Hex'. injection Hex' as <- -> ->.
    destruct Hgs as (Hnd & Hg1 & Hg2).
    (* exactly one group, with both observations *)
    assert (exists il, gs = [([0; 0]%Z, il)]) as [il ->].
    { assert (forall z il, (z, il) ∈ gs -> z = [0; 0]%Z) as Hz.
      { intros z il Hin. destruct (Hg1 z il Hin) as (vals & (Hne' & _ & _ & Hall) & Hiff).
        destruct il as [|k il]; [done|]. assert (k ∈ k :: il) as Hk by left.
        apply Hiff in Hk as ([v Hv] & _ & Hbk). rewrite Hdata in Hv. apply C11_data_lookup in Hv as [Hv _].
        rewrite Hds, (C11_block k Hv) in Hbk. congruence. }
      destruct gs as [|[z il] gs].
      - destruct (Hg2 [1; 2]%Z) as (z & il & Hin & _); [rewrite Hdata; eexists; by apply C11_data_lookup; split; [left|]| |].
        + rewrite Hds. unfold mentions. simpl. left.
        + by apply elem_of_nil in Hin.
      - exists il. rewrite (Hz z il) by left. f_equal. destruct gs as [|[z' il'] gs]; [done|].
        exfalso. rewrite !fmap_cons in Hnd. apply NoDup_cons in Hnd as [Hnd _]. apply Hnd. simpl.
        rewrite (Hz z il) by left. rewrite (Hz z' il') by (right; left). left. }
    destruct (Hg1 [0; 0]%Z il) as (vals & (Hilne & Hilnd & Hvals & _) & Hiff); [left|].
    assert (il ≡ₚ [[1; 2]; [2; 1]]%Z) as Hperm.
    { apply NoDup_Permutation; [done|by_compute|]. intros k. rewrite Hiff, Hdata, Hds. split.
      - intros ([v Hv] & _). by apply C11_data_lookup in Hv as [? _].
      - intros Hk. split_and!; [eexists; by apply C11_data_lookup| |by apply C11_block].
        unfold mentions. apply elem_of_cons in Hk as [->|[->|[]%elem_of_nil]%elem_of_cons]; simpl; [left|right; left]. }
    assert (vals = [true; true]) as ->.
    { assert (length vals = 2) as Hlen.
      { apply mapM_length in Hvals. rewrite <- Hvals, Hperm. done. }
      assert (forall v, v ∈ vals -> v = true) as Hv.
      { intros v Hv. apply elem_of_list_lookup in Hv as [n Hn].
        apply mapM_Some_1 in Hvals. destruct (Forall2_lookup_r _ _ _ _ _ Hvals Hn) as (k & _ & Hk).
        rewrite Hdata in Hk. by apply C11_data_lookup in Hk as [_ ->]. }
      destruct vals as [|v1 [|v2 [|]]]; try done. rewrite (Hv v1) by left. rewrite (Hv v2) by (right; left). done. }
    apply Forall2_cons_inv_l in HF as (x & l1 & (xs & -> & Hx) & HF & ->).
    apply Forall2_cons_inv_l in HF as (y & l2 & (ys & -> & Hy) & HF & ->).
    apply Forall2_nil_inv_l in HF as ->.
    apply Forall2_cons_inv_l in Hx as (x & l1 & Hx & HF & ->). apply Forall2_nil_inv_l in HF as ->.
    apply Forall2_cons_inv_l in Hy as (y & l2 & Hy & HF & ->). apply Forall2_nil_inv_l in HF as ->.
    exists (Rsum [x]), (Rsum [y]). split; [done|]. rewrite !Rsum_cons, !Rsum_nil.
    assert (x = ln (1 / 3)) as ->.
    { destruct Hx as (vals & (_ & _ & Hvals' & _) & Hx). simpl in Hvals'. rewrite Hvals in Hvals'. injection Hvals' as <-.
      rewrite decide_False in Hx by done. destruct Hx as (k0 & z' & r0 & Hk0 & Hz' & Hx).
      assert (values_in (block_of C11_A (r_doms rel)) (r_data rel) z' = []) as Hv0.
      { rewrite Hds, Hdata. apply C11_values_other. intros k Hk. rewrite (C11_block k Hk). intros [= <-].
        cbn [snd] in Hk0. assert (k0 ∈ [[1; 2]; [2; 1]]%Z) as Hin by (rewrite <- Hperm; by eapply elem_of_list_lookup_2).
        rewrite Hds in Hz'. apply elem_of_cons in Hin as [->|[->|[]%elem_of_nil]%elem_of_cons]; vm_compute in Hz'; done. }
      rewrite (Hx C11_h).
      - rewrite Hv0, app_nil_r. simpl. rewrite (proj2 C11_scores), bb_score_empty. lra.
      - unfold target_hyp. destruct (r_clusters rel !! z') eqn:Ez; [|done]. done. }
    assert (y = ln (1 / 3)) as ->.
    { destruct Hy as (vals & (_ & Hnd' & Hvals' & Hall) & Hy). simpl in Hvals'. rewrite Hvals in Hvals'. injection Hvals' as <-.
      rewrite decide_True in Hy by done. rewrite Hy. simpl fst. simpl snd in *.
      rewrite Hds, Hdata, C11_values.
      assert (values_in (block_of C11_A C11_ds) (without C11_data il) [0; 0]%Z = []) as ->.
      { apply values_in_nil. intros k v Hk. rewrite without_lookup in Hk. destruct (decide (k ∈ il)) as [|Hn]; [done|].
        apply C11_data_lookup in Hk as [Hk _]. by rewrite Hperm in Hn. }
      simpl. rewrite (proj2 C11_scores), bb_score_empty. lra. }
    split; [lra|].
    assert (forall sp r, (d_new D sp r).1 = law_of L C11_h []) as Hf by done.
    pose proof (rel_set_cluster_const L C11_h Hf W C11_A rel ord' "d" 1 1 r2 rel' r' HW Hrel Ho' Hbr Hset) as Hb'.
    rewrite Hds, Hdata in Hb'. rewrite (C11_score_before rel Hb), (C11_score_after rel' Hb').
    replace (1 / 4)%R with (3 / 4 * (1 / 3))%R by lra. rewrite ln_mult by lra. lra.
  Qed.
End Run.
