From stdpp Require Import gmap strings sorting.
From Coq Require Import ZArith Reals Lra Lia.
From Verif Require Import M_base M_crp M_domain M_dist M_relation S_crp S_crp_state S_math S_relation
  P_base P_math P_sum P_crp P_domain P_relation P_relation_score.

Lemma mapM_seat_move_absent (A : clustering) (d0 : string) (e0 t0 : Z) (l : list (string * Z)) :
  d0 ∉ l.*1 -> mapM (fun p => seat (clustering_move A d0 e0 t0) p.1 p.2) l = mapM (fun p => seat A p.1 p.2) l.
Proof.
  induction l as [|[d e] l IH]; intros Hn; [done|]. rewrite fmap_cons in Hn.
  apply not_elem_of_cons in Hn as [Hd Hn]. cbn [mapM fst snd].
  rewrite seat_move, decide_False by naive_solver. by rewrite IH.
Qed.

Lemma mapM_seat_move_pos (A : clustering) (ds : list string) (k : items_t) p d0 e0 t0 z :
  NoDup ds -> ds !! p = Some d0 -> (d0, e0) ∈ zip ds k -> d0 ∈ dom A -> length k = length ds ->
  mapM (fun p => seat A p.1 p.2) (zip ds k) = Some z ->
  mapM (fun p => seat (clustering_move A d0 e0 t0) p.1 p.2) (zip ds k) = Some (<[p := t0]> z) /\
  z !! p = seat A d0 e0.
Proof.
  revert k p z. induction ds as [|d ds IH]; intros [|e k] p z Hnd Hp Hin HA Hl Hm; simpl in *; try done.
  apply NoDup_cons in Hnd as [Hd Hnd]. injection Hl as Hl.
  destruct (seat A d e) as [t|] eqn:Es; [|done]. simpl in Hm.
  destruct (mapM _ (zip ds k)) as [zs|] eqn:Em; [|done]. injection Hm as <-.
  destruct p as [|p]; simpl in Hp.
  - injection Hp as ->.
    assert (e = e0) as ->.
    { apply elem_of_cons in Hin as [[= ->]|Hin]; [done|]. destruct Hd. by apply elem_of_zip_l in Hin. }
    rewrite seat_move, decide_True by done. cbn [mbind option_bind].
    rewrite mapM_seat_move_absent, Em; [done|]. rewrite fst_zip by lia. done.
  - assert (d <> d0) as Hne. { intros ->. destruct Hd. by eapply elem_of_list_lookup_2. }
    rewrite seat_move, decide_False by naive_solver. rewrite Es. cbn [mbind option_bind].
    destruct (IH k p zs) as [IH1 IH2]; try done.
    { apply elem_of_cons in Hin as [[= -> _]|Hin]; done. }
    by rewrite IH1.
Qed.

Lemma block_of_move_pos (A : clustering) (ds : list string) (k : items_t) p d0 e0 t0 z :
  NoDup ds -> ds !! p = Some d0 -> mentions ds k d0 e0 -> d0 ∈ dom A ->
  block_of A ds k = Some z ->
  block_of (clustering_move A d0 e0 t0) ds k = Some (<[p := t0]> z) /\ z !! p = seat A d0 e0.
Proof.
  intros Hnd Hp Hm HA Hb. apply block_of_Some in Hb as [Hl Hb].
  destruct (mapM_seat_move_pos A ds k p d0 e0 t0 z Hnd Hp Hm HA Hl Hb) as [H1 H2].
  split; [|done]. by apply block_of_Some.
Qed.

Lemma Rsum_fmap_ext {A} (f g : A -> R) l : (forall x, x ∈ l -> f x = g x) -> Rsum (f <$> l) = Rsum (g <$> l).
Proof.
  induction l as [|x l IH]; intros H; [done|]. csimpl. rewrite !Rsum_cons, (H x) by left.
  rewrite IH; [done|]. intros y Hy. apply H. by right.
Qed.

Lemma Rsum_fmap_minus {A} (f g : A -> R) l :
  Rsum ((fun x => (f x - g x)%R) <$> l) = (Rsum (f <$> l) - Rsum (g <$> l))%R.
Proof. induction l as [|x l IH]; [csimpl; rewrite !Rsum_nil; lra|]. csimpl. rewrite !Rsum_cons, IH. lra. Qed.

Lemma Rsum_fmap_zero {A} (f : A -> R) l : (forall x, x ∈ l -> f x = 0%R) -> Rsum (f <$> l) = 0%R.
Proof.
  induction l as [|x l IH]; intros H; [done|]. csimpl. rewrite !Rsum_cons, (H x) by left.
  rewrite IH; [lra|]. intros y Hy. apply H. by right.
Qed.

(** A sum over a map as a sum over any duplicate-free list covering its keys. *)
Lemma sum_map_cover {K A} `{Countable K} (f : A -> R) (m : gmap K A) (l : list K) :
  NoDup l -> (forall k, is_Some (m !! k) -> k ∈ l) ->
  sum_map (fun _ c => f c) m = Rsum ((fun k => match m !! k with Some c => f c | None => 0%R end) <$> l).
Proof.
  revert m. induction l as [|k l IH]; intros m Hnd Hc.
  - assert (m = ∅) as ->; [|by rewrite sum_map_empty].
    apply map_empty. intros k. destruct (m !! k) eqn:E; [|done].
    assert (k ∈ ([] : list K)) by (apply Hc; eauto). by apply elem_of_nil in H0.
  - apply NoDup_cons in Hnd as [Hk Hnd]. csimpl. rewrite Rsum_cons.
    assert (Rsum ((fun k0 => match m !! k0 with Some c => f c | None => 0%R end) <$> l) =
            Rsum ((fun k0 => match delete k m !! k0 with Some c => f c | None => 0%R end) <$> l)) as ->.
    { apply Rsum_fmap_ext. intros x Hx. rewrite lookup_delete_ne; [done|]. by intros ->. }
    rewrite <- IH; [|done|].
    + destruct (m !! k) as [c|] eqn:E.
      * by rewrite (sum_map_delete _ m k c E).
      * rewrite delete_notin by done. lra.
    + intros k' Hk'. apply lookup_delete_is_Some in Hk' as [Hne Hk'].
      apply Hc in Hk'. apply elem_of_cons in Hk' as [->|]; done.
Qed.

Section Gibbs.
  Context {V : Type} {D : Dist V} (L : lawful D).
  Implicit Types (rel : relation D).

  Lemma rel_logp_score_sum rel :
    rel_logp_score D rel = sum_map (fun _ c => d_score D c) (r_clusters rel).
  Proof.
    unfold rel_logp_score. rewrite <- map_fold_sum_map. unfold map_fold. unfold compose.
    apply foldr_ext; [|done|done]. intros [? ?] ?. simpl. lra.
  Qed.

  Lemma move_loop_hh W A rel d0 e0 t0 cur p h0 todo dn hh cl r :
    world_holds W A -> rel_holds L A rel ->
    NoDup (r_doms rel) -> r_doms rel !! p = Some d0 -> seat A d0 e0 = Some cur -> t0 <> cur ->
    (forall r, (d_new D (r_spec rel) r).1 = law_of L h0 []) ->
    let A' := clustering_move A d0 e0 t0 in
    blocks_hold L hh (g_partial A A' (r_doms rel) dn) (r_data rel) cl ->
    (forall z, cl !! z = None -> z !! p <> Some cur -> hh z = h0) ->
    NoDup (dn ++ todo) ->
    (forall k, k ∈ todo -> is_Some (r_data rel !! k) /\ mentions (r_doms rel) k d0 e0) ->
    exists cl' r', foldM (move_one D W rel d0 e0 t0) (cl, r) todo = Ok (cl', r') /\
      blocks_hold L hh (g_partial A A' (r_doms rel) (dn ++ todo)) (r_data rel) cl'.
  Proof.
    intros HW Hrel Hndd Hp Hcur Hne Hfresh A'. revert dn cl r.
    induction todo as [|k todo IH]; intros dn cl r Hb Hhh Hnd Htodo; cbn [foldM].
    { exists cl, r. split; [done|]. by rewrite app_nil_r. }
    destruct (Htodo k) as [[v Hv] Hm]; [left|].
    destruct (rh_known _ _ _ Hrel k v Hv) as [[z Hz] _].
    pose proof (proj2 (get_cluster_assignment_Ok W A HW rel k z) Hz) as Hgz.
    destruct (get_cluster_assignment_gibbs_Ok W A HW rel k d0 e0 t0) as (z' & Hgz' & Hz'); [eauto|done|].
    destruct (block_of_move_pos A (r_doms rel) k p d0 e0 t0 z) as [Hmv Hzp]; try done.
    { by eapply seat_dom. }
    rewrite Hz' in Hmv. injection Hmv as ->. rewrite Hcur in Hzp.
    assert (k ∉ dn) as Hkd.
    { apply NoDup_app in Hnd as (_ & Hnd & _). intros Hin. apply (Hnd k Hin). left. }
    assert (<[p := t0]> z !! p = Some t0) as Hz'p.
    { apply list_lookup_insert. by eapply lookup_lt_Some. }
    assert (<[p := t0]> z <> z) as Hzz by congruence.
    destruct (move_one_spec L W rel d0 e0 t0 hh _ cl r k v z (<[p := t0]> z) h0 Hb) as (cl0 & cl' & r' & -> & Hrm & Hb'); try done.
    { intros k' v' Hv'. by apply (rh_known _ _ _ Hrel k' v'). }
    { unfold g_partial. by rewrite decide_False. }
    cbn [obind]. replace (dn ++ k :: todo) with ((dn ++ [k]) ++ todo) in * by by rewrite <- app_assoc.
    assert (forall x, x <> z -> cl0 !! x = cl !! x) as Hcl0.
    { intros x Hx. unfold remove_from_cluster in Hrm. apply obind_Ok in Hrm as (c & _ & Hrm).
      apply obind_Ok in Hrm as (c1 & _ & [= <-]).
      destruct (d_N_zero D c1); [by rewrite lookup_delete_ne|by rewrite lookup_insert_ne]. }
    assert (blocks_hold L hh (g_partial A A' (r_doms rel) (dn ++ [k])) (r_data rel) cl') as Hb''.
    { eapply blocks_ext; [exact Hb'| |].
      - intros k' Hk'. simpl. unfold g_partial.
        destruct (decide (k' = k)) as [->|Hkk].
        + rewrite decide_True by (apply elem_of_app; right; left). done.
        + destruct (decide (k' ∈ dn)) as [Hi|Hi].
          * rewrite decide_True by (apply elem_of_app; by left). done.
          * rewrite decide_False; [done|]. rewrite elem_of_app, elem_of_list_singleton. naive_solver.
      - intros x _. destruct (cl0 !! <[p:=t0]> z) eqn:E; [done|].
        destruct (decide (x = <[p:=t0]> z)) as [->|]; [|done].
        symmetry. apply Hhh; [by rewrite <- Hcl0|congruence]. }
    apply IH; try done.
    - intros x Hx Hxp. apply Hhh; [|done].
      pose proof (proj1 (blocks_hold_alt L _ _ _ _) Hb'' x) as H1. rewrite Hx in H1.
      pose proof (proj1 (blocks_hold_alt L _ _ _ _) Hb x) as H2.
      destruct (values_in (g_partial A A' (r_doms rel) (dn ++ [k])) (r_data rel) x) eqn:E1; [|done].
      assert (values_in (g_partial A A' (r_doms rel) dn) (r_data rel) x = []) as E2; [|by rewrite E2 in H2].
      apply values_in_nil. intros k' v' Hv' Hg. 
      apply (proj1 (values_in_nil _ _ _) E1 k' v' Hv'). unfold g_partial in *.
      destruct (decide (k' = k)) as [->|Hkk].
      + rewrite decide_False in Hg by done. rewrite Hz in Hg. congruence.
      + destruct (decide (k' ∈ dn)) as [Hi|Hi].
        * rewrite decide_True by (apply elem_of_app; by left). done.
        * rewrite decide_False; [done|]. rewrite elem_of_app, elem_of_list_singleton. naive_solver.
    - intros k' Hk'. apply Htodo. by right.
  Qed.

  Lemma gibbs_exact_difference W A rel ord mord ord' d0 e0 t0 cur ts lps rel1 r r1 r2 i j x y rel' r' :
    world_holds W A -> rel_holds L A rel -> order_ok ord -> map_order_ok mord -> order_ok ord' ->
    NoDup (r_doms rel) -> 
    (exists h0, forall r, (d_new D (r_spec rel) r).1 = law_of L h0 []) ->
    logp_gibbs_exact D W rel ord mord d0 e0 ts r = Ok (lps, rel1, r1) ->
    seat A d0 e0 = Some cur -> 
    ts !! i = Some t0 -> ts !! j = Some cur -> lps !! i = Some x -> lps !! j = Some y ->
    rel_set_cluster D W rel ord' d0 e0 t0 r2 = Ok (rel', r') ->
    (x - y = rel_logp_score D rel' - rel_logp_score D rel)%R.
  Proof.
    intros HW Hrel Hord Hmord Hord' Hnd [h0 Hfresh] Hex Hcur Hti Htj Hxi Hyj Hset.
    pose proof (law_score_empty D L) as Hzero.
    destruct (rel_set_cluster_inv W A rel ord' d0 e0 t0 r2 _ HW Hset) as (cur' & m & s & Hcur' & Hne & Hm & Hs).
    rewrite Hcur in Hcur'. injection Hcur' as <-.
    destruct (index_lookup L rel A d0 e0 m s Hrel Hm Hs) as [Hobs Hsne].
    assert (exists p, r_doms rel !! p = Some d0) as [p Hp].
    { apply elem_of_list_lookup. pose proof (rh_index _ _ _ Hrel d0) as H. rewrite Hm in H. by destruct H. }
    (* hyperparameters: fresh ones for absent blocks *)
    destruct (rh_blocks _ _ _ Hrel) as [hh1 Hb1].
    set (hh := fun z => match r_clusters rel !! z with Some _ => hh1 z | None => h0 end).
    assert (blocks_hold L hh (block_of A (r_doms rel)) (r_data rel) (r_clusters rel)) as Hb.
    { eapply blocks_ext; [exact Hb1|done|]. intros z [c Hc]. unfold hh. by rewrite Hc. }
    clear Hb1.
    (* the scores *)
    destruct (logp_gibbs_exact_spec L W A rel hh ord mord d0 e0 ts r m s cur HW Hrel Hord Hmord Hb Hm Hs Hcur)
      as (lps' & r1' & gs & Hex' & (Hgnd & Hgel & Hgcov) & HF).
    rewrite Hex in Hex'. injection Hex' as <- -> ->.
    destruct (Forall2_lookup_lr _ _ _ _ _ _ HF Hti Hxi) as (xs & -> & HFx).
    destruct (Forall2_lookup_lr _ _ _ _ _ _ HF Htj Hyj) as (ys & -> & HFy).
    (* the blocks after the move *)
    set (g := block_of A (r_doms rel)) in *.
    set (A' := clustering_move A d0 e0 t0).
    set (g' := block_of A' (r_doms rel)).
    assert (blocks_hold L hh g' (r_data rel) (r_clusters rel')) as Hb'.
    { unfold rel_set_cluster in Hset.
      apply obind_Ok in Hset as (dm & Hd & Hset). apply obind_Ok in Hset as (cur2 & Hc & Hset).
      apply obind_Ok in Hset as (? & _ & Hset). rewrite Hm in Hset. simpl in Hset. rewrite Hs in Hset. cbn [at_ obind] in Hset.
      destruct (move_loop_hh W A rel d0 e0 t0 cur p h0 (ord' s) [] hh (r_clusters rel) r2)
        as (cl' & r3 & HE & Hb'); try done.
      { intros z Hz _. unfold hh. by rewrite Hz. }
      { simpl. rewrite (Hord' s). apply NoDup_elements. }
      { intros k Hk. rewrite (Hord' s), elem_of_elements, Hobs, elem_of_observations in Hk. done. }
      rewrite HE in Hset. cbn [obind] in Hset. injection Hset as <- <-. simpl.
      eapply blocks_ext; [exact Hb'| |done]. intros k Hk. unfold g_partial.
      destruct (decide (k ∈ [] ++ ord' s)) as [Hi|Hi]; [done|].
      simpl in Hi. rewrite (Hord' s), elem_of_elements, Hobs, elem_of_observations in Hi.
      unfold g', A'. rewrite block_of_move_other; [done|]. naive_solver. }
    set (zs := gs.*1).
    set (nz := fun z : list Z => <[p := t0]> z).
    assert (d0 ∈ dom A) as HdA by by eapply seat_dom.
    (* facts about the moved observations *)
    assert (forall k z, mentions (r_doms rel) k d0 e0 -> g k = Some z ->
              z !! p = Some cur /\ g' k = Some (nz z)) as Hmoved.
    { intros k z Hmk Hgk. destruct (block_of_move_pos A (r_doms rel) k p d0 e0 t0 z) as [H1 H2]; try done.
      rewrite Hcur in H2. done. }
    assert (forall k, ~ mentions (r_doms rel) k d0 e0 -> g' k = g k) as Hkept.
    { intros k Hmk. by apply block_of_move_other. }
    assert (forall z, z ∈ zs -> z !! p = Some cur) as Hzs.
    { intros z Hz. apply elem_of_list_fmap in Hz as ([z' il] & -> & Hin). simpl.
      destruct (Hgel z' il Hin) as (vals & (Hilne & _ & _ & _) & Hk). destruct il as [|k il]; [done|].
      destruct (proj1 (Hk k)) as (_ & Hmk & Hgk); [left|]. by apply (Hmoved k z'). }
    assert (forall z, z ∈ zs -> nz z !! p = Some t0) as Hnz.
    { intros z Hz. apply list_lookup_insert. eapply lookup_lt_Some. by apply Hzs. }
    assert (forall z1 z2, z1 ∈ zs -> z2 ∈ zs -> nz z1 = nz z2 -> z1 = z2) as Hinj.
    { intros z1 z2 H1 H2 Heq. apply Hzs in H1, H2.
      rewrite <- (list_insert_id z1 p cur H1), <- (list_insert_id z2 p cur H2).
      unfold nz in Heq. rewrite <- (list_insert_insert z1 p cur t0), <- (list_insert_insert z2 p cur t0). by rewrite Heq. }
    (* scores as sums over a common list of blocks *)
    set (Kset := filter (fun z => z ∉ zs /\ z ∉ nz <$> zs) (elements (dom (r_clusters rel) ∪ dom (r_clusters rel')))).
    set (K := zs ++ (nz <$> zs) ++ Kset).
    assert (NoDup K) as HKnd.
    { unfold K. apply NoDup_app. split; [done|]. split.
      - intros z Hz Hz2. apply elem_of_app in Hz2 as [Hz2|Hz2].
        + apply elem_of_list_fmap in Hz2 as (z1 & -> & Hz1). apply Hnz in Hz1. apply Hzs in Hz. congruence.
        + apply elem_of_list_filter in Hz2 as [[Hz2 _] _]. done.
      - apply NoDup_app. split; [|split].
        + apply NoDup_fmap_2_strong; [|done]. intros; by apply Hinj.
        + intros z Hz Hz2. apply elem_of_list_filter in Hz2 as [[_ Hz2] _]. done.
        + apply NoDup_filter, NoDup_elements. }
    assert (forall cl z, (cl = r_clusters rel \/ cl = r_clusters rel') -> is_Some (cl !! z) -> z ∈ K) as Hcov.
    { intros cl z Hcl Hz. unfold K. rewrite !elem_of_app.
      destruct (decide (z ∈ zs)); [by left|]. destruct (decide (z ∈ nz <$> zs)); [by right; left|].
      right; right. apply elem_of_list_filter. split; [done|]. apply elem_of_elements, elem_of_union.
      apply elem_of_dom in Hz. destruct Hcl as [-> | ->]; auto. }
    rewrite !rel_logp_score_sum.
    rewrite (sum_map_cover (d_score D) (r_clusters rel) K HKnd) by eauto.
    rewrite (sum_map_cover (d_score D) (r_clusters rel') K HKnd) by eauto.
    set (S0 := fun z => d_score D (law_of L (hh z) (values_in g (r_data rel) z))).
    set (S1 := fun z => d_score D (law_of L (hh z) (values_in g' (r_data rel) z))).
    rewrite (Rsum_fmap_ext (fun k => match r_clusters rel !! k with Some c => d_score D c | None => 0%R end) S0).
    2:{ intros z _. unfold S0. rewrite (proj1 (blocks_hold_alt L _ _ _ _) Hb z).
        destruct (values_in g (r_data rel) z); [|done]. simpl. by rewrite Hzero. }
    rewrite (Rsum_fmap_ext (fun k => match r_clusters rel' !! k with Some c => d_score D c | None => 0%R end) S1 K).
    2:{ intros z _. unfold S1. rewrite (proj1 (blocks_hold_alt L _ _ _ _) Hb' z).
        destruct (values_in g' (r_data rel) z); [|done]. simpl. by rewrite Hzero. }
    rewrite <- Rsum_fmap_minus. unfold K. rewrite !fmap_app, !Rsum_app.
    assert (forall z il vals, (z, il) ∈ gs -> is_group A rel z il vals ->
       (S1 z - S0 z = - (S0 z - d_score D (law_of L (hh z) (values_in g (without (r_data rel) il) z))))%R /\
       (S1 (nz z) = d_score D (law_of L (hh (nz z)) (vals ++ values_in g (r_data rel) (nz z))))) as Hgrp.
    { intros z il vals Hin Hgr. destruct (Hgel z il Hin) as (vals' & _ & Hk).
      destruct Hgr as (Hilne & Hilnd & Hvals & Hilz).
      assert (z ∈ zs) as Hz. { apply elem_of_list_fmap. exists (z, il). done. }
      split.
      - assert (S1 z = d_score D (law_of L (hh z) (values_in g (without (r_data rel) il) z))) as ->; [|lra].
        unfold S1. f_equal. apply law_perm.
        rewrite (values_in_without_other g' (r_data rel) il z).
        + rewrite (values_in_iff g' g); [done|]. intros k [Hkd Hkil]%without_is_Some.
          destruct (decide (mentions (r_doms rel) k d0 e0)) as [Hmk|Hmk]; [|by rewrite Hkept].
          split.
          * intros Hg'. destruct Hkd as [v Hv]. destruct (rh_known _ _ _ Hrel k v Hv) as [[zk Hzk] _].
            destruct (Hmoved k zk Hmk Hzk) as [H1 H2]. rewrite Hg' in H2. injection H2 as ->.
            apply Hzs in Hz. unfold nz in Hz. rewrite list_lookup_insert in Hz by by eapply lookup_lt_Some. congruence.
          * intros Hg. destruct Hkil. apply Hk. done.
        + intros k Hki Hg'. destruct (proj1 (Hk k) Hki) as (_ & Hmk & Hgk).
          destruct (Hmoved k z Hmk Hgk) as [_ H2]. rewrite Hg' in H2. injection H2 as H2.
          pose proof (Hnz z Hz) as H3. rewrite <- H2 in H3. apply Hzs in Hz. congruence.
      - unfold S1. f_equal. apply law_perm.
        rewrite (values_in_split g' (r_data rel) il vals (nz z) Hvals Hilnd).
        + apply Permutation_app_head. rewrite (values_in_without_other g (r_data rel) il (nz z)).
          * rewrite (values_in_iff g' g); [done|]. intros k [Hkd Hkil]%without_is_Some.
            destruct (decide (mentions (r_doms rel) k d0 e0)) as [Hmk|Hmk]; [|by rewrite Hkept].
            destruct (Hgcov k Hkd Hmk) as (zk & ilk & Hinz & Hzk).
            destruct (Hmoved k zk Hmk Hzk) as [H1 H2].
            assert (zk ∈ zs) as Hzkz. { apply elem_of_list_fmap. exists (zk, ilk). done. }
            split.
            -- rewrite H2. intros [= H3]. apply Hinj in H3; [|done|done]. subst zk. destruct Hkil. by apply Hk.
            -- intros Hg. rewrite Hzk in Hg. injection Hg as ->. apply Hnz in Hz. congruence.
          * intros k Hki. unfold g; rewrite (Hilz k Hki). intros [= H3]. pose proof (Hnz z Hz) as H4. rewrite <- H3 in H4.
            apply Hzs in Hz. congruence.
        + intros k Hki. destruct (proj1 (Hk k) Hki) as (_ & Hmk & Hgk). by apply (Hmoved k z). }
    assert (Rsum ((fun z => (S1 z - S0 z)%R) <$> zs) = (- Rsum ys)%R) as ->.
    { unfold zs. clear -HFy Hgrp. induction HFy as [|[z il] y gs ys Hc HF IH].
      { csimpl. rewrite !Rsum_nil. lra. }
      csimpl. rewrite !Rsum_cons, IH.
      2:{ intros z1 il1 vals1 Hin. apply Hgrp. by right. }
      destruct Hc as (vals & Hg & Hc). rewrite decide_True in Hc by done. simpl in Hc, Hg.
      destruct (Hgrp z il vals) as [H1 _]; [left|done|]. rewrite H1. unfold S0. rewrite Hc. fold g. lra. }
    assert (Rsum ((fun z => (S1 z - S0 z)%R) <$> (nz <$> zs)) = Rsum xs) as ->.
    { assert (forall z il, (z, il) ∈ gs -> forall k, k ∈ il -> mentions (r_doms rel) k d0 e0 /\ g k = Some z) as Hmen.
      { intros z il Hin k Hki. destruct (Hgel z il Hin) as (_ & _ & Hk). apply Hk in Hki. naive_solver. }
      unfold zs. clear -HFx Hgrp Hmen Hmoved Hne Hfresh. induction HFx as [|[z il] x gs xs Hc HF IH].
      { done. }
      csimpl. rewrite !Rsum_cons, IH.
      2:{ intros z1 il1 vals1 Hin. apply Hgrp. by right. }
      2:{ intros z1 il1 Hin. apply Hmen. by right. }
      destruct Hc as (vals & Hg & Hc). rewrite decide_False in Hc by done. simpl in Hc, Hg.
      destruct (Hgrp z il vals) as [_ H1]; [left|done|]. rewrite H1.
      destruct Hc as (k0 & z' & rr & Hk0 & Hz' & Hx).
      destruct (Hmen z il) with k0 as [Hmk Hgk]; [left|by eapply elem_of_list_lookup_2|].
      destruct (Hmoved k0 z Hmk Hgk) as [_ H2]. unfold g', A' in H2. rewrite Hz' in H2. injection H2 as ->.
      rewrite (Hx (hh (nz z))).
      - fold g. unfold S0. done.
      - unfold target_hyp, hh. destruct (r_clusters rel !! nz z); [done|]. apply Hfresh. }
    rewrite (Rsum_fmap_zero _ Kset); [lra|].
    intros z Hz. apply elem_of_list_filter in Hz as [[Hz1 Hz2] _]. unfold S0, S1.
    rewrite (values_in_iff g' g); [lra|]. intros k Hkd.
    destruct (decide (mentions (r_doms rel) k d0 e0)) as [Hmk|Hmk]; [|by rewrite Hkept].
    destruct (Hgcov k Hkd Hmk) as (zk & ilk & Hinz & Hzk).
    assert (zk ∈ zs) as Hzkz. { apply elem_of_list_fmap. exists (zk, ilk). done. }
    destruct (Hmoved k zk Hmk Hzk) as [H1 H2]. rewrite H2, Hzk. split.
    - intros [= <-]. destruct Hz2. apply elem_of_list_fmap. eauto.
    - intros [= <-]. done.
  Qed.
End Gibbs.
