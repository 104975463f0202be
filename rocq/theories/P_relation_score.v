From stdpp Require Import gmap strings sorting.
From Coq Require Import ZArith Reals Lra Lia.
From Verif Require Import M_base M_crp M_domain M_dist M_relation S_crp S_crp_state S_math S_relation
  P_base P_math P_sum P_crp P_domain P_relation.

(** ** Sub-lists of the data *)
Section Sub.
  Context {V : Type}.
  Implicit Types (g : items_t -> option (list Z)) (data : gmap items_t V).

  Definition without data (il : list items_t) : gmap items_t V := foldr delete data il.

  Lemma without_lookup data il k : without data il !! k = if decide (k ∈ il) then None else data !! k.
  Proof.
    induction il as [|x il IH]; [done|]. cbn [without foldr].
    destruct (decide (k = x)) as [->|Hne].
    - rewrite lookup_delete, decide_True by left. done.
    - rewrite lookup_delete_ne by done. fold (without data il). rewrite IH.
      destruct (decide (k ∈ il)) as [Hi|Hi].
      + rewrite decide_True by by right. done.
      + rewrite decide_False; [done|]. rewrite elem_of_cons. naive_solver.
  Qed.

  Lemma without_is_Some data il k : is_Some (without data il !! k) <-> is_Some (data !! k) /\ k ∉ il.
  Proof.
    rewrite without_lookup. destruct (decide (k ∈ il)).
    - split; [by intros [? ?]|naive_solver].
    - naive_solver.
  Qed.

  Lemma values_in_split g data il vals z :
    mapM (fun k => data !! k) il = Some vals -> NoDup il ->
    (forall k, k ∈ il -> g k = Some z) ->
    values_in g data z ≡ₚ vals ++ values_in g (without data il) z.
  Proof.
    revert vals. induction il as [|k il IH]; intros vals Hm Hnd Hg; simpl in Hm.
    { injection Hm as <-. done. }
    apply NoDup_cons in Hnd as [Hk Hnd].
    destruct (data !! k) as [v|] eqn:Ev; [|done]. simpl in Hm.
    destruct (mapM _ il) as [vs|] eqn:Evs; [|done]. injection Hm as <-.
    rewrite (IH vs eq_refl Hnd) by (intros k' Hk'; apply Hg; by right). simpl.
    fold (without data il).
    assert (without data il !! k = Some v) as Hw by by rewrite without_lookup, decide_False.
    rewrite (values_in_delete g _ k v z Hw). rewrite decide_True by (apply Hg; left).
    by rewrite Permutation_middle.
  Qed.

  Lemma values_in_without_other g data il z :
    (forall k, k ∈ il -> g k <> Some z) ->
    values_in g data z ≡ₚ values_in g (without data il) z.
  Proof.
    induction il as [|k il IH]; intros Hg; simpl; [done|].
    rewrite IH by (intros k' Hk'; apply Hg; by right). fold (without data il).
    destruct (without data il !! k) as [v|] eqn:Ev.
    - rewrite (values_in_delete g _ k v z Ev), decide_False; [done|]. apply Hg. left.
    - by rewrite delete_notin.
  Qed.

  Lemma values_in_iff g g' data z :
    (forall k, is_Some (data !! k) -> (g k = Some z <-> g' k = Some z)) ->
    values_in g data z = values_in g' data z.
  Proof.
    intros Hg. unfold values_in. f_equal.
    assert (forall p, p ∈ map_to_list data -> (g p.1 = Some z <-> g' p.1 = Some z)) as Hp.
    { intros [k v] Hin. apply elem_of_map_to_list in Hin. apply Hg. eauto. }
    revert Hp. generalize (map_to_list data) as l. clear.
    induction l as [|p l IH]; intros Hp; [done|].
    rewrite !filter_cons. rewrite IH by (intros q Hq; apply Hp; by right).
    specialize (Hp p). destruct (decide (g p.1 = Some z)), (decide (g' p.1 = Some z)); set_solver.
  Qed.
End Sub.

Section Score.
  Context {V : Type} {D : Dist V} (L : lawful D).
  Implicit Types (rel : relation D).

  Lemma uninc_all_spec rel h il vals rest :
    mapM (fun k => r_data rel !! k) il = Some vals -> Forall (law_adm L) (vals ++ rest) ->
    uninc_all D rel (law_of L h (vals ++ rest)) il = Ok (law_of L h rest).
  Proof.
    revert vals. induction il as [|k il IH]; intros vals Hm HF; simpl in Hm.
    { injection Hm as <-. done. }
    destruct (r_data rel !! k) as [v|] eqn:Ev; [|done]. simpl in Hm.
    destruct (mapM _ il) as [vs|] eqn:Evs; [|done]. injection Hm as <-.
    unfold uninc_all. cbn [foldM]. rewrite Ev. simpl. rewrite law_uninc by done. simpl.
    apply IH; [done|]. simpl in HF. by apply Forall_cons in HF as [_ ?].
  Qed.

  Lemma inc_all_spec rel h il vals l :
    mapM (fun k => r_data rel !! k) il = Some vals -> Forall (law_adm L) (vals ++ l) ->
    inc_all D rel (law_of L h l) il = Ok (law_of L h (vals ++ l)).
  Proof.
    revert vals l. induction il as [|k il IH]; intros vals l Hm HF; simpl in Hm.
    { injection Hm as <-. done. }
    destruct (r_data rel !! k) as [v|] eqn:Ev; [|done]. simpl in Hm.
    destruct (mapM _ il) as [vs|] eqn:Evs; [|done]. injection Hm as <-.
    simpl in HF. apply Forall_cons in HF as [Hv HF].
    unfold inc_all. cbn [foldM]. rewrite Ev. simpl.
    assert (d_inc D (law_of L h l) v = Ok (law_of L h (v :: l))) as ->.
    { apply law_inc; [|done]. by apply Forall_app in HF as [_ ?]. }
    simpl. fold (inc_all D rel (law_of L h (v :: l)) il).
    rewrite (IH vs (v :: l) eq_refl).
    - f_equal. apply law_perm. by rewrite Permutation_middle.
    - rewrite <- Permutation_middle. by constructor.
  Qed.

  Lemma approx_equal_refl x : approx_equal x x = true.
  Proof.
    unfold approx_equal. destruct (Rle_dec _ _) as [|Hn]; [done|]. destruct Hn.
    unfold Rminus. rewrite Rplus_opp_r, Rabs_R0. apply Rmult_le_pos; [|apply Rabs_pos].
    left. apply Rinv_0_lt_compat. by apply IZR_lt.
  Qed.

  (** A group: distinct observations of one block. *)
  Definition is_group A rel (z : list Z) (il : list items_t) (vals : list V) : Prop :=
    il <> [] /\ NoDup il /\ mapM (fun k => r_data rel !! k) il = Some vals /\
    forall k, k ∈ il -> block_of A (r_doms rel) k = Some z.

  Lemma exact_current_spec W A rel hh z il vals :
    world_holds W A -> rel_holds L A rel ->
    blocks_hold L hh (block_of A (r_doms rel)) (r_data rel) (r_clusters rel) ->
    is_group A rel z il vals ->
    logp_gibbs_exact_current D W rel il =
      Ok ((d_score D (law_of L (hh z) (values_in (block_of A (r_doms rel)) (r_data rel) z))
           - d_score D (law_of L (hh z) (values_in (block_of A (r_doms rel)) (without (r_data rel) il) z)))%R, rel).
  Proof.
    intros HW Hrel Hb (Hne & Hnd & Hm & Hz). unfold logp_gibbs_exact_current.
    rewrite bool_decide_eq_false_2 by done. simpl.
    destruct il as [|k il']; [done|]. cbn [lookup list_lookup idx_ obind].
    rewrite (proj2 (get_cluster_assignment_Ok W A HW rel k z)) by (apply Hz; left).
    cbn [obind]. set (il := k :: il') in *.
    set (g := block_of A (r_doms rel)) in *.
    pose proof (values_in_split g (r_data rel) il vals z Hm Hnd Hz) as Hp.
    set (rest := values_in g (without (r_data rel) il) z) in *.
    assert (Forall (law_adm L) (vals ++ rest)) as HF.
    { rewrite <- Hp. apply values_in_Forall. intros k' w Hw. by apply (rh_known _ _ _ Hrel k' w). }
    assert (r_clusters rel !! z = Some (law_of L (hh z) (vals ++ rest))) as Hc.
    { rewrite (proj1 (blocks_hold_alt L _ _ _ _) Hb z). fold g. rewrite (block_state_perm L _ _ _ Hp).
      destruct vals; [|done]. unfold il in Hm. apply mapM_Some_1, Forall2_length in Hm. done. }
    rewrite Hc. cbn [at_ obind]. rewrite (uninc_all_spec rel (hh z) il vals rest Hm HF). cbn [obind].
    rewrite (inc_all_spec rel (hh z) il vals rest Hm HF). cbn [obind].
    rewrite approx_equal_refl. simpl.
    rewrite (law_perm D L (hh z) _ _ Hp), (insert_id _ _ _ Hc). by destruct rel.
  Qed.

  (** The block object the moved values would go to: the existing one of block [z'], or a fresh one. *)
  Definition target_hyp rel (hh : list Z -> law_hyp L) (z' : list Z) (r : rng) (h : law_hyp L) : Prop :=
    match r_clusters rel !! z' with
    | Some _ => h = hh z'
    | None => (d_new D (r_spec rel) r).1 = law_of L h []
    end.

  Lemma exact_variant_spec W A rel hh z il vals d0 e0 t0 r :
    world_holds W A -> rel_holds L A rel ->
    blocks_hold L hh (block_of A (r_doms rel)) (r_data rel) (r_clusters rel) ->
    is_group A rel z il vals -> (forall k, k ∈ il -> mentions (r_doms rel) k d0 e0) ->
    exists k0 z', il !! 0 = Some k0 /\ block_of (clustering_move A d0 e0 t0) (r_doms rel) k0 = Some z' /\
      (exists h, target_hyp rel hh z' r h) /\
      forall h, target_hyp rel hh z' r h ->
      logp_gibbs_exact_variant D W rel d0 e0 t0 il r =
      Ok ((d_score D (law_of L h (vals ++ values_in (block_of A (r_doms rel)) (r_data rel) z'))
           - d_score D (law_of L h (values_in (block_of A (r_doms rel)) (r_data rel) z')))%R, rel,
          (d_new D (r_spec rel) r).2).
  Proof.
    intros HW Hrel Hb (Hne & Hnd & Hm & Hz) Hmen.
    destruct il as [|k0 il']; [done|]. set (il := k0 :: il') in *.
    destruct (get_cluster_assignment_gibbs_Ok W A HW rel k0 d0 e0 t0) as (z' & Hg & Hz').
    { rewrite Hz by left. eauto. }
    { apply Hmen. left. }
    exists k0, z'. split; [done|]. split; [done|]. split.
    { unfold target_hyp. destruct (r_clusters rel !! z'); [eauto|]. apply law_new. }
    intros h Hh. unfold logp_gibbs_exact_variant. rewrite bool_decide_eq_false_2 by done.
    cbn [negb assert_ obind]. change (il !! 0) with (Some k0). cbn [idx_ obind]. rewrite Hg. cbn [obind].
    unfold make_new_distribution. destruct (d_new D (r_spec rel) r) as [prior r'] eqn:En. simpl.
    set (g := block_of A (r_doms rel)) in *.
    set (l := values_in g (r_data rel) z') in *.
    assert (forall k' w, r_data rel !! k' = Some w -> law_adm L w) as Hall.
    { intros k' w Hw. by apply (rh_known _ _ _ Hrel k' w). }
    assert (Forall (law_adm L) (vals ++ l)) as HF.
    { apply Forall_app. split.
      - pose proof (values_in_split g (r_data rel) il vals z Hm Hnd Hz) as Hp.
        assert (Forall (law_adm L) (vals ++ values_in g (without (r_data rel) il) z)) as HF.
        { rewrite <- Hp. by apply values_in_Forall. }
        by apply Forall_app in HF as [? _].
      - by apply values_in_Forall. }
    pose proof (proj1 (blocks_hold_alt L _ _ _ _) Hb z') as Hbz. fold l in Hbz.
    unfold target_hyp in Hh. rewrite En in Hh. simpl in Hh.
    assert (default prior (r_clusters rel !! z') = law_of L h l) as ->.
    { rewrite Hbz in Hh |- *. destruct l as [|w l']; simpl in *; [done|by subst h]. }
    rewrite (inc_all_spec rel h il vals l Hm HF). cbn [obind].
    rewrite (uninc_all_spec rel h il vals l Hm HF). cbn [obind].
    rewrite approx_equal_refl. simpl. f_equal. f_equal. f_equal.
    rewrite Hbz in Hh |- *. destruct l as [|w l']; simpl in *; [done|]. subst h.
    rewrite insert_id by done. by destruct rel.
  Qed.

  (** The map of groups. *)
  Lemma groups_loop_spec (W : world) (A : clustering) rel (l : list items_t) (acc : gmap (list Z) (list items_t)) (dn : list items_t) :
    world_holds W A -> (forall k, k ∈ l -> is_Some (block_of A (r_doms rel) k)) ->
    (forall z, acc !! z = match filter (fun k => block_of A (r_doms rel) k = Some z) dn with
                          | [] => None | x => Some x end) ->
    exists m, foldM (fun acc items =>
        let* z := get_cluster_assignment D W rel items in
        Ok (<[z := default [] (acc !! z) ++ [items]]> acc)) acc l = Ok m /\
      (forall z, m !! z = match filter (fun k => block_of A (r_doms rel) k = Some z) (dn ++ l) with
                          | [] => None | x => Some x end).
  Proof.
    intros HW. revert acc dn. induction l as [|k l IH]; intros acc dn Hk Hacc; cbn [foldM].
    { exists acc. rewrite app_nil_r. done. }
    destruct (Hk k) as [z Hz]; [left|].
    rewrite (proj2 (get_cluster_assignment_Ok W A HW rel k z) Hz). cbn [obind].
    replace (dn ++ k :: l) with ((dn ++ [k]) ++ l) by by rewrite <- app_assoc.
    apply IH.
    - intros k' Hk'. apply Hk. by right.
    - intros z'. rewrite filter_app, filter_cons, filter_nil. destruct (decide (z' = z)) as [->|Hne].
      + rewrite decide_True by done. rewrite lookup_insert, Hacc.
        destruct (filter _ dn); done.
      + rewrite decide_False by congruence. rewrite app_nil_r, lookup_insert_ne by done. apply Hacc.
  Qed.

  Definition groups_ok A rel d0 e0 (gs : list (list Z * list items_t)) : Prop :=
    NoDup gs.*1 /\
    (forall z il, (z, il) ∈ gs -> exists vals, is_group A rel z il vals /\
       (forall k, k ∈ il <-> is_Some (r_data rel !! k) /\ mentions (r_doms rel) k d0 e0 /\
                            block_of A (r_doms rel) k = Some z)) /\
    (forall k, is_Some (r_data rel !! k) -> mentions (r_doms rel) k d0 e0 ->
       exists z il, (z, il) ∈ gs /\ block_of A (r_doms rel) k = Some z).

  Lemma groups_spec W A rel ord mord d0 e0 m s :
    world_holds W A -> rel_holds L A rel -> order_ok ord -> map_order_ok mord ->
    r_data_r rel !! d0 = Some m -> m !! e0 = Some s ->
    exists gm, get_cluster_to_items_list D W rel ord d0 e0 = Ok gm /\ groups_ok A rel d0 e0 (mord gm).
  Proof.
    intros HW Hrel Hord Hmord Hm Hs. unfold get_cluster_to_items_list. rewrite Hm. simpl. rewrite Hs. simpl.
    destruct (index_lookup L rel A d0 e0 m s Hrel Hm Hs) as [Hobs _].
    assert (forall k, k ∈ ord s <-> is_Some (r_data rel !! k) /\ mentions (r_doms rel) k d0 e0) as Hin.
    { intros k. rewrite (Hord s), elem_of_elements, Hobs, elem_of_observations. done. }
    destruct (groups_loop_spec W A rel (ord s) ∅ [] HW) as (gm & Hgm & Hlk).
    { intros k Hk. apply Hin in Hk as [[v Hv] _]. by apply (rh_known _ _ _ Hrel k v). }
    { intros z. by rewrite lookup_empty. }
    exists gm. split; [done|]. simpl in Hlk.
    assert (forall z il, (z, il) ∈ mord gm <-> gm !! z = Some il) as Hmem.
    { intros z il. rewrite (Hmord gm). apply elem_of_map_to_list. }
    split; [|split].
    - rewrite (Hmord gm). apply NoDup_fst_map_to_list.
    - intros z il Hz. apply Hmem in Hz. rewrite Hlk in Hz.
      assert (il = filter (fun k => block_of A (r_doms rel) k = Some z) (ord s) /\ il <> []) as [Hil Hne].
      { destruct (filter _ _); [done|]. injection Hz as <-. done. }
      assert (forall k, k ∈ il <-> is_Some (r_data rel !! k) /\ mentions (r_doms rel) k d0 e0 /\
                            block_of A (r_doms rel) k = Some z) as Hel.
      { intros k. rewrite Hil, elem_of_list_filter, Hin. naive_solver. }
      assert (is_Some (mapM (fun k => r_data rel !! k) il)) as [vals Hvals].
      { apply mapM_is_Some, Forall_forall. intros k Hk. by apply Hel in Hk as [? _]. }
      exists vals. split; [|done]. split; [done|]. split.
      { rewrite Hil. apply NoDup_filter. rewrite (Hord s). apply NoDup_elements. }
      split; [done|]. intros k Hk. apply Hel in Hk. naive_solver.
    - intros k Hk Hmk. destruct Hk as [v Hv].
      destruct (rh_known _ _ _ Hrel k v Hv) as [[z Hz] _].
      assert (k ∈ filter (fun k => block_of A (r_doms rel) k = Some z) (ord s)) as Hf.
      { apply elem_of_list_filter. split; [done|]. apply Hin. eauto. }
      destruct (gm !! z) as [il|] eqn:Eg.
      + exists z, il. split; [by apply Hmem|done].
      + rewrite Hlk in Eg. destruct (filter _ _); [by apply elem_of_nil in Hf|done].
  Qed.

  (** Contribution of one group to the score of a table. *)
  Definition contrib A rel (hh : list Z -> law_hyp L) d0 e0 cur t0 (zil : list Z * list items_t) (x : R) : Prop :=
    let g := block_of A (r_doms rel) in
    exists vals, is_group A rel zil.1 zil.2 vals /\
    if decide (t0 = cur) then
      x = (d_score D (law_of L (hh zil.1) (values_in g (r_data rel) zil.1))
           - d_score D (law_of L (hh zil.1) (values_in g (without (r_data rel) zil.2) zil.1)))%R
    else exists k0 z' r, zil.2 !! 0 = Some k0 /\
      block_of (clustering_move A d0 e0 t0) (r_doms rel) k0 = Some z' /\ forall h, target_hyp rel hh z' r h ->
      x = (d_score D (law_of L h (vals ++ values_in g (r_data rel) z'))
           - d_score D (law_of L h (values_in g (r_data rel) z')))%R.

  Lemma exact_table_spec W A rel hh d0 e0 cur t0 gs lp r :
    world_holds W A -> rel_holds L A rel ->
    blocks_hold L hh (block_of A (r_doms rel)) (r_data rel) (r_clusters rel) ->
    (forall z il, (z, il) ∈ gs -> exists vals, is_group A rel z il vals /\
      forall k, k ∈ il -> mentions (r_doms rel) k d0 e0) ->
    exists xs r', foldM (fun '(lp, rel, r) '(_, items_list) =>
      if bool_decide (t0 = cur) then
        let* (x, rel) := logp_gibbs_exact_current D W rel items_list in
        Ok ((lp + x)%R, rel, r)
      else
        let* (x, rel, r) := logp_gibbs_exact_variant D W rel d0 e0 t0 items_list r in
        Ok ((lp + x)%R, rel, r)) (lp, rel, r) gs = Ok ((lp + Rsum xs)%R, rel, r') /\
      Forall2 (contrib A rel hh d0 e0 cur t0) gs xs.
  Proof.
    intros HW Hrel Hb. revert lp r. induction gs as [|[z il] gs IH]; intros lp r Hgs.
    { exists [], r. simpl. split; [|constructor]. rewrite Rsum_nil. by rewrite Rplus_0_r. }
    destruct (Hgs z il) as (vals & Hgr & Hmen); [left|].
    assert (forall z il, (z, il) ∈ gs -> exists vals, is_group A rel z il vals /\
      forall k, k ∈ il -> mentions (r_doms rel) k d0 e0) as Hgs'.
    { intros z' il' Hin. apply Hgs. by right. }
    cbn [foldM]. case_bool_decide as Ht.
    - rewrite (exact_current_spec W A rel hh z il vals HW Hrel Hb Hgr). cbn [obind].
      match goal with |- context [(lp + ?x)%R] => destruct (IH (lp + x)%R r Hgs') as (xs & r' & HE & HF);
        exists (x :: xs), r' end.
      split; [rewrite HE, Rsum_cons; f_equal; f_equal; f_equal; lra|].
      constructor; [|done]. exists vals. split; [done|]. by rewrite decide_True.
    - destruct (exact_variant_spec W A rel hh z il vals d0 e0 t0 r HW Hrel Hb Hgr Hmen)
        as (k0 & z' & Hk0 & Hz' & [h Hh] & Heq). rewrite (Heq h Hh). cbn [obind].
      match goal with |- context [(lp + ?x)%R] => 
        destruct (IH (lp + x)%R (d_new D (r_spec rel) r).2 Hgs') as (xs & r' & HE & HF);
        exists (x :: xs), r' end.
      split; [rewrite HE, Rsum_cons; f_equal; f_equal; f_equal; lra|].
      constructor; [|done]. exists vals. split; [done|]. rewrite decide_False by done.
      exists k0, z', r. split; [done|]. split; [done|]. intros h' Hh'.
      pose proof (Heq h Hh) as E1. rewrite (Heq h' Hh') in E1. by injection E1.
  Qed.

  (** Scoring leaves the relation as it was and gives one score per table. *)
  Lemma logp_gibbs_exact_spec W A rel hh ord mord d0 e0 ts r m s cur :
    world_holds W A -> rel_holds L A rel -> order_ok ord -> map_order_ok mord ->
    blocks_hold L hh (block_of A (r_doms rel)) (r_data rel) (r_clusters rel) ->
    r_data_r rel !! d0 = Some m -> m !! e0 = Some s -> seat A d0 e0 = Some cur ->
    exists lps r' gs, logp_gibbs_exact D W rel ord mord d0 e0 ts r = Ok (lps, rel, r') /\
      groups_ok A rel d0 e0 gs /\
      Forall2 (fun t lp => exists xs, lp = Rsum xs /\ Forall2 (contrib A rel hh d0 e0 cur t) gs xs) ts lps.
  Proof.
    intros HW Hrel Hord Hmord Hb Hm Hs Hcur. unfold logp_gibbs_exact.
    destruct (groups_spec W A rel ord mord d0 e0 m s HW Hrel Hord Hmord Hm Hs) as (gm & -> & Hgs). cbn [obind].
    destruct (world_get_cluster W A HW d0 e0 cur Hcur) as (dm & -> & Hdm). cbn [obind]. rewrite Hdm. cbn [obind].
    set (gs := mord gm) in *.
    assert (forall logps r, exists lps r', foldM (fun '(logps, rel, r) t =>
      let* (lp, rel, r) := logp_gibbs_exact_table D W d0 e0 cur t gs rel r in
      Ok (logps ++ [lp], rel, r)) (logps, rel, r) ts = Ok (logps ++ lps, rel, r') /\
      Forall2 (fun t lp => exists xs, lp = Rsum xs /\ Forall2 (contrib A rel hh d0 e0 cur t) gs xs) ts lps) as Hloop.
    { induction ts as [|t ts IH]; intros logps r0; cbn [foldM].
      { exists [], r0. rewrite app_nil_r. split; [done|constructor]. }
      unfold logp_gibbs_exact_table at 1.
      destruct (exact_table_spec W A rel hh d0 e0 cur t gs 0%R r0 HW Hrel Hb) as (xs & r1 & -> & HF).
      { intros z il Hin. destruct Hgs as (_ & Hgs & _). destruct (Hgs z il Hin) as (vals & Hg & Hk).
        exists vals. split; [done|]. intros k Hki. by apply Hk in Hki as (_ & ? & _). }
      cbn [obind]. destruct (IH (logps ++ [0 + Rsum xs]%R) r1) as (lps & r2 & HE & HF2).
      exists ((0 + Rsum xs)%R :: lps), r2. split.
      - rewrite HE. by rewrite <- app_assoc.
      - constructor; [|done]. exists xs. split; [lra|done]. }
    destruct (Hloop [] r) as (lps & r' & -> & HF). exists lps, r', gs. done.
  Qed.
End Score.
