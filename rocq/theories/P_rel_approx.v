(** The approximate reassignment scores of a relation. *)
From stdpp Require Import gmap strings sorting.
From Coq Require Import ZArith Reals Lra Lia.
From Verif Require Import M_base M_math M_crp M_domain M_dist M_distributions M_relation M_noisy M_irm M_logp M_rel_logp
  S_math S_crp S_crp_state S_dist S_relation S_irm S_score S_rel_approx P_base P_math P_sum P_domain P_relation P_relation_score P_relation_gibbs P_reached.

Lemma lp_sum_cons x l : lp_sum (x :: l) = match x, lp_sum l with Some a, Some b => Some (a + b)%R | _, _ => None end.
Proof. done. Qed.
Lemma lp_sum_perm l l' : l ≡ₚ l' -> lp_sum l = lp_sum l'.
Proof.
  induction 1 as [|x l l' _ IH|x y l|l l' l'' _ IH _ IH']; [done| | |by rewrite IH].
  - by rewrite !lp_sum_cons, IH.
  - rewrite !lp_sum_cons. destruct x, y, (lp_sum l); try done. f_equal. lra.
Qed.
Lemma lp_sum_Some l : lp_sum (Some <$> l) = Some (Rsum l).
Proof. induction l as [|x l IH]; [done|]. by rewrite fmap_cons, Rsum_cons, lp_sum_cons, IH. Qed.

Section Approx.
  Context {V : Type} {D : Dist V} (L : lawful D).
  Implicit Types (rel : relation D).

  Lemma current_state A rel hh k v z :
    rel_holds L A rel -> blocks_hold L hh (block_of A (r_doms rel)) (r_data rel) (r_clusters rel) ->
    r_data rel !! k = Some v -> block_of A (r_doms rel) k = Some z ->
    let rest := values_in (block_of A (r_doms rel)) (delete k (r_data rel)) z in
    values_in (block_of A (r_doms rel)) (r_data rel) z ≡ₚ v :: rest /\
    Forall (law_adm L) (v :: rest) /\ r_clusters rel !! z = Some (law_of L (hh z) (v :: rest)).
  Proof.
    intros Hrel Hb Hv Hz rest. set (g := block_of A (r_doms rel)) in *.
    pose proof (values_in_split g (r_data rel) [k] [v] z) as Hp. simpl in Hp. rewrite Hv in Hp. specialize (Hp eq_refl (NoDup_singleton _)).
    assert (values_in g (r_data rel) z ≡ₚ v :: rest) as Hp'. { apply Hp. intros k' ->%elem_of_list_singleton. done. }
    split; [done|]. split.
    - rewrite <- Hp'. apply values_in_Forall. intros k' w Hw. by apply (rh_known _ _ _ Hrel k' w).
    - rewrite (proj1 (blocks_hold_alt L _ _ _ _) Hb z). fold g. by rewrite (block_state_perm L _ _ _ Hp').
  Qed.

  Lemma current_step W A rel k v acc :
    world_holds W A -> rel_holds L A rel -> r_data rel !! k = Some v ->
    exists z s, block_of A (r_doms rel) k = Some z /\ (exists c, r_clusters rel !! z = Some c /\ d_uninc D c v = Ok s) /\
    approx_current_step D W (acc, rel) k = let* lp := d_logp D s v in Ok (lw_add acc lp, rel).
  Proof.
    intros HW Hrel Hv. destruct (rh_known _ _ _ Hrel k v Hv) as [[z Hz] _]. destruct (rh_blocks _ _ _ Hrel) as [hh Hb].
    destruct (current_state A rel hh k v z Hrel Hb Hv Hz) as (_ & HF & Hc).
    set (rest := values_in _ _ z) in *. exists z, (law_of L (hh z) rest). split; [done|].
    pose proof (law_uninc D L (hh z) rest v HF) as Hu. split; [by eexists|].
    unfold approx_current_step. rewrite Hv. cbn [at_ obind].
    rewrite (proj2 (get_cluster_assignment_Ok W A HW rel k z) Hz). cbn [obind]. rewrite Hc. cbn [at_ obind]. rewrite Hu. cbn [obind].
    destruct (d_logp D _ v) as [lp| | | | |]; cbn [obind]; try done.
    apply Forall_cons in HF as [Ha HF].
    rewrite (proj2 (law_inc D L (hh z) rest v (law_of L (hh z) (v :: rest)) HF)) by done. cbn [obind].
    rewrite (insert_id _ _ _ Hc). by destruct rel.
  Qed.

  Lemma current_loop W A rel ks acc : world_holds W A -> rel_holds L A rel -> (forall k, k ∈ ks -> is_Some (r_data rel !! k)) ->
    (forall lp rel', foldM (approx_current_step D W) (acc, rel) ks = Ok (lp, rel') ->
      rel' = rel /\ exists lps, Forall2 (own_logp A rel) ks lps /\ lp = lw_add acc (lp_sum lps)) /\
    (forall lps, Forall2 (own_logp A rel) ks lps -> exists lp, foldM (approx_current_step D W) (acc, rel) ks = Ok (lp, rel)).
  Proof.
    intros HW Hrel. revert acc. induction ks as [|k ks IH]; intros acc Hks.
    { split.
      - intros lp rel' [= <- <-]. split; [done|]. exists []. split; [constructor|]. destruct acc; simpl; [by rewrite Rplus_0_r|done].
      - intros lps HF. by eexists. }
    destruct (Hks k) as [v Hv]; [left|].
    destruct (current_step W A rel k v acc HW Hrel Hv) as (z & s & Hz & (c & Hc & Hu) & Hst). cbn [foldM]. rewrite Hst. split.
    - intros lp rel' H. apply obind_Ok in H as (st & H1 & H). apply obind_Ok in H1 as (l0 & Hl & [= <-]).
      apply (proj1 (IH (lw_add acc l0) (fun k Hk => Hks k (elem_of_list_further _ _ _ Hk)))) in H as (-> & lps & HF & ->). split; [done|].
      exists (l0 :: lps). split; [constructor; [by exists v, z, c, s|done]|].
      rewrite lp_sum_cons.
      destruct acc, l0, (lp_sum lps); simpl; try done. f_equal. lra.
    - intros lps HF. inversion HF as [|? l0 ? lps' H0 HF']; subst.
      destruct H0 as (v' & z' & c' & s' & Hv' & Hz' & Hc' & Hu' & Hl). rewrite Hv in Hv'. injection Hv' as <-. rewrite Hz in Hz'. injection Hz' as <-. rewrite Hc in Hc'. injection Hc' as <-.
      rewrite Hu in Hu'. injection Hu' as <-. rewrite Hl. cbn [obind].
      apply (proj2 (IH (lw_add acc l0) (fun k Hk => Hks k (elem_of_list_further _ _ _ Hk))) lps' HF').
  Qed.

  Lemma variant_step W A rel d e t k v acc r :
    world_holds W A -> rel_holds L A rel -> r_data rel !! k = Some v -> mentions (r_doms rel) k d e ->
    exists z, block_of (clustering_move A d e t) (r_doms rel) k = Some z /\
    approx_variant_step D W rel d e t (acc, r) k =
      let* lp := d_logp D (default (d_new D (r_spec rel) r).1 (r_clusters rel !! z)) v in
      Ok (lw_add acc lp, match r_clusters rel !! z with Some _ => r | None => (d_new D (r_spec rel) r).2 end).
  Proof.
    intros HW Hrel Hv Hm. destruct (get_cluster_assignment_gibbs_Ok W A HW rel k d e t) as (z & Hg & Hz); [by apply (rh_known _ _ _ Hrel k v)|done|].
    exists z. split; [done|]. unfold approx_variant_step. rewrite Hv. cbn [at_ obind]. rewrite Hg. cbn [obind].
    unfold make_new_distribution. destruct (r_clusters rel !! z); [done|]. destruct (d_new D (r_spec rel) r) as [c r']. done.
  Qed.

  Lemma variant_loop W A rel d e t ks acc r : world_holds W A -> rel_holds L A rel ->
    (forall k, k ∈ ks -> is_Some (r_data rel !! k) /\ mentions (r_doms rel) k d e) ->
    (forall lp r', foldM (approx_variant_step D W rel d e t) (acc, r) ks = Ok (lp, r') ->
      exists lps, Forall2 (moved_logp A rel d e t) ks lps /\ lp = lw_add acc (lp_sum lps)).
  Proof.
    intros HW Hrel. revert acc r. induction ks as [|k ks IH]; intros acc r Hks lp r' H.
    { injection H as <- <-. exists []. split; [constructor|]. destruct acc; simpl; [by rewrite Rplus_0_r|done]. }
    destruct (Hks k) as [[v Hv] Hm]; [left|].
    destruct (variant_step W A rel d e t k v acc r HW Hrel Hv Hm) as (z & Hz & Hst). cbn [foldM] in H. rewrite Hst in H.
    apply obind_Ok in H as (st & H1 & H). apply obind_Ok in H1 as (l0 & Hl & [= <-]).
    apply (IH _ _ (fun k Hk => Hks k (elem_of_list_further _ _ _ Hk))) in H as (lps & HF & ->).
    exists (l0 :: lps). split.
    - constructor; [|done]. exists v, z, (default (d_new D (r_spec rel) r).1 (r_clusters rel !! z)). split_and!; try done.
      destruct (r_clusters rel !! z); [by left|]. right. split; [done|]. by exists r.
    - rewrite lp_sum_cons.
      destruct acc, l0, (lp_sum lps); simpl; try done. f_equal. lra.
  Qed.

  (** What a successful call returns. *)
  Lemma approx_spec W A rel ord d e t r lp rel' r' : world_holds W A -> rel_holds L A rel -> order_ok ord ->
    logp_gibbs_approx D W rel ord d e t r = Ok (lp, rel', r') ->
    rel' = rel /\ exists cur lps, seat A d e = Some cur /\ observations_of (r_doms rel) (r_data rel) d e <> ∅ /\
      Forall2 (if decide (t = cur) then own_logp A rel else moved_logp A rel d e t)
        (ord (observations_of (r_doms rel) (r_data rel) d e)) lps /\ lp = lp_sum lps.
  Proof.
    intros HW Hrel Ho H. unfold logp_gibbs_approx in H. apply obind_Ok in H as (dm & Hdm & H). apply obind_Ok in H as (cur & Hcur & H).
    pose proof (world_get_cluster_inv W A HW _ _ _ _ Hdm Hcur) as Hseat.
    assert (forall m s, r_data_r rel !! d = Some m -> m !! e = Some s ->
      s = observations_of (r_doms rel) (r_data rel) d e /\ s <> ∅) as Hobs.
    { intros m s Hm Hs. destruct (index_lookup L rel A d e m s Hrel Hm Hs) as [E Hne]. split; [done|].
      pose proof (rh_index _ _ _ Hrel d) as Hi. rewrite Hm in Hi. destruct Hi as [_ Hi]. rewrite (Hi e) in Hs. case_decide; [done|]. by injection Hs as <-. }
    assert (forall s k, s = observations_of (r_doms rel) (r_data rel) d e -> k ∈ ord s -> is_Some (r_data rel !! k) /\ mentions (r_doms rel) k d e) as Hks.
    { intros s k -> Hk. rewrite (Ho _), elem_of_elements, elem_of_observations in Hk. done. }
    case_bool_decide as Ht.
    - apply obind_Ok in H as ([lp1 rel1] & H & [= <- <- <-]). unfold logp_gibbs_approx_current in H.
      apply obind_Ok in H as (m & Hm%at_Ok & H). apply obind_Ok in H as (s & Hs%at_Ok & H). destruct (Hobs m s Hm Hs) as [E Hne].
      apply (proj1 (current_loop W A rel (ord s) (Some 0%R) HW Hrel (fun k Hk => proj1 (Hks s k E Hk)))) in H as (-> & lps & HF & ->).
      split; [done|]. exists cur, lps. rewrite decide_True by done. rewrite <- E. split_and!; try done. destruct (lp_sum lps); simpl; [f_equal; lra|done].
    - apply obind_Ok in H as ([lp1 r1] & H & [= <- <- <-]). unfold logp_gibbs_approx_variant in H.
      apply obind_Ok in H as (m & Hm%at_Ok & H). apply obind_Ok in H as (s & Hs%at_Ok & H). destruct (Hobs m s Hm Hs) as [E Hne].
      apply (variant_loop W A rel d e t (ord s) (Some 0%R) r HW Hrel (fun k Hk => Hks s k E Hk)) in H as (lps & HF & ->).
      split; [done|]. exists cur, lps. rewrite decide_False by done. rewrite <- E. split_and!; try done. destruct (lp_sum lps); simpl; [f_equal; lra|done].
  Qed.
End Approx.

Section Exact.
  Context {V : Type} {D : Dist V} (L : rlawful D) (Hsc : scores_predictively D).
  Implicit Types (rel : relation D).

  Lemma law_chain h l v : Forall (law_adm L) (v :: l) ->
    d_logp D (law_of L h l) v = Ok (Some (d_score D (law_of L h (v :: l)) - d_score D (law_of L h l))%R).
  Proof.
    intros [Hv Hl]%Forall_cons. pose proof (history_fill L h l (rl_reached D L h) Hl) as Hh.
    destruct (Hsc _ _ v _ Hh (proj2 (law_inc D L h l v _ Hl) (conj Hv eq_refl))) as (lp & -> & ->). do 2 f_equal. lra.
  Qed.

  (** The object of an existing block or a fresh object. *)
  Lemma target_state A rel hh z r : rel_holds L A rel -> blocks_hold L hh (block_of A (r_doms rel)) (r_data rel) (r_clusters rel) ->
    exists h, target_hyp L rel hh z r h /\
      default (d_new D (r_spec rel) r).1 (r_clusters rel !! z) = law_of L h (values_in (block_of A (r_doms rel)) (r_data rel) z) /\
      Forall (law_adm L) (values_in (block_of A (r_doms rel)) (r_data rel) z).
  Proof.
    intros Hrel Hb. assert (Forall (law_adm L) (values_in (block_of A (r_doms rel)) (r_data rel) z)) as HF.
    { apply values_in_Forall. intros k w Hw. by apply (rh_known _ _ _ Hrel k w). }
    pose proof (Hb z) as Hz. unfold target_hyp. destruct (values_in _ _ z) as [|v l]; rewrite Hz; simpl.
    - destruct (law_new D L (r_spec rel) r) as [h Hh]. by exists h.
    - by exists (hh z).
  Qed.

  Lemma moved_total A rel k v z r : rel_holds L A rel -> r_data rel !! k = Some v ->
    exists x, d_logp D (default (d_new D (r_spec rel) r).1 (r_clusters rel !! z)) v = Ok (Some x).
  Proof.
    intros Hrel Hv. destruct (rh_blocks _ _ _ Hrel) as [hh Hb]. destruct (target_state A rel hh z r Hrel Hb) as (h & _ & -> & HF).
    rewrite law_chain; [by eexists|]. constructor; [|done]. by apply (rh_known _ _ _ Hrel k v).
  Qed.

  Lemma approx_succeeds W A rel ord d e t r cur : world_holds W A -> rel_holds L A rel -> order_ok ord ->
    seat A d e = Some cur -> observations_of (r_doms rel) (r_data rel) d e <> ∅ ->
    exists lp r', logp_gibbs_approx D W rel ord d e t r = Ok (Some lp, rel, r').
  Proof.
    intros HW Hrel Ho Hseat Hne. unfold logp_gibbs_approx. destruct (world_get_cluster W A HW d e cur Hseat) as (dm & -> & Hdm). cbn [obind].
    rewrite Hdm. cbn [obind]. set (s := observations_of (r_doms rel) (r_data rel) d e) in *.
    assert (exists m, r_data_r rel !! d = Some m /\ m !! e = Some s) as (m & Hm & Hs).
    { pose proof (rh_index _ _ _ Hrel d) as Hi. destruct (r_data_r rel !! d) as [m|].
      - exists m. split; [done|]. destruct Hi as [_ Hi]. rewrite (Hi e). by rewrite decide_False.
      - destruct Hne. apply set_eq. intros k. split; [|set_solver]. unfold s. rewrite elem_of_observations. intros [_ Hk].
        unfold mentions in Hk. apply elem_of_zip_l in Hk. done. }
    assert (forall k, k ∈ ord s -> is_Some (r_data rel !! k) /\ mentions (r_doms rel) k d e) as Hks.
    { intros k Hk. rewrite (Ho _), elem_of_elements in Hk. by apply elem_of_observations in Hk. }
    case_bool_decide as Ht.
    - unfold logp_gibbs_approx_current. rewrite Hm. cbn [at_ obind]. rewrite Hs. cbn [at_ obind].
      generalize (0%R). revert Hks. generalize (ord s). clear -Hsc HW Hrel. intros ks. induction ks as [|k ks IH]; intros Hks acc; [by eexists _, _|].
      destruct (Hks k) as [[v Hv] _]; [left|]. destruct (rh_known _ _ _ Hrel k v Hv) as [[z0 Hz0] _]. destruct (rh_blocks _ _ _ Hrel) as [hh Hb].
      destruct (current_state L A rel hh k v z0 Hrel Hb Hv Hz0) as (_ & HF & Hc).
      destruct (current_step L W A rel k v (Some acc) HW Hrel Hv) as (z & s & Hz & (c & Hc' & Hu) & Hst).
      rewrite Hz0 in Hz. injection Hz as <-. rewrite Hc in Hc'. injection Hc' as <-. rewrite (law_uninc D L _ _ _ HF) in Hu. injection Hu as <-.
      rewrite (law_chain _ _ _ HF) in Hst. cbn [obind lw_add] in Hst. cbn [foldM]. rewrite Hst. cbn [obind].
      apply IH. intros k' Hk'. apply Hks. by right.
    - unfold logp_gibbs_approx_variant. rewrite Hm. cbn [at_ obind]. rewrite Hs. cbn [at_ obind].
      generalize (0%R). revert r Hks. generalize (ord s). clear -Hsc HW Hrel. intros ks. induction ks as [|k ks IH]; intros r Hks acc; [by eexists _, _|].
      destruct (Hks k) as [[v Hv] Hk]; [left|].
      destruct (variant_step L W A rel d e t k v (Some acc) r HW Hrel Hv Hk) as (z & Hz & Hst).
      destruct (moved_total A rel k v z r Hrel Hv) as [x Hx]. rewrite Hx in Hst. cbn [obind lw_add] in Hst. cbn [foldM]. rewrite Hst. cbn [obind].
      apply IH. intros k' Hk'. apply Hks. by right.
  Qed.

  (** Observations of an entity that are alone in their blocks are scored as in the exact scores. *)
  Lemma approx_exact W A rel ord mord ord' d e t ts lps rel1 r r1 i x lp rel2 r2 r3 :
    world_holds W A -> rel_holds L A rel -> order_ok ord -> map_order_ok mord -> order_ok ord' ->
    (forall r r', (d_new D (r_spec rel) r).1 = (d_new D (r_spec rel) r').1) ->
    (forall k k', k ∈ observations_of (r_doms rel) (r_data rel) d e -> k' ∈ observations_of (r_doms rel) (r_data rel) d e ->
       block_of A (r_doms rel) k = block_of A (r_doms rel) k' -> k = k') ->
    logp_gibbs_exact D W rel ord mord d e ts r = Ok (lps, rel1, r1) -> ts !! i = Some t -> lps !! i = Some x ->
    logp_gibbs_approx D W rel ord' d e t r2 = Ok (lp, rel2, r3) -> lp = Some x.
  Proof.
    intros HW Hrel Ho Hmo Ho' Hfix Hsep Hex Ht Hx Hap.
    destruct (approx_spec L W A rel ord' d e t r2 lp rel2 r3 HW Hrel Ho' Hap) as (_ & cur & lps' & Hseat & Hne & HF & ->).
    destruct (rh_blocks _ _ _ Hrel) as [hh Hb].
    pose proof Hex as H0. unfold logp_gibbs_exact, get_cluster_to_items_list in H0.
    apply obind_Ok in H0 as (gm & Hgm & _). apply obind_Ok in Hgm as (m & Hm%at_Ok & Hgm). apply obind_Ok in Hgm as (s & Hs%at_Ok & _).
    destruct (logp_gibbs_exact_spec L W A rel hh ord mord d e ts r m s cur HW Hrel Ho Hmo Hb Hm Hs Hseat) as (lps2 & rx & gs & Hex' & Hgs & HF2).
    rewrite Hex in Hex'. injection Hex' as <- _ _. destruct (Forall2_lookup_lr _ _ _ _ _ _ HF2 Ht Hx) as (xs & -> & HC). clear HF2 Hx.
    set (g := block_of A (r_doms rel)) in *. set (g' := block_of (clustering_move A d e t) (r_doms rel)).
    set (obs := observations_of (r_doms rel) (r_data rel) d e) in *.
    assert (forall k, k ∈ obs <-> is_Some (r_data rel !! k) /\ mentions (r_doms rel) k d e) as Hobs by (intros; apply elem_of_observations).
    destruct (law_new D L (r_spec rel) []) as [h0 Hh0].
    set (F := fun k => match r_data rel !! k with
      | Some v => if decide (t = cur) then
          let z := default [] (g k) in (d_score D (law_of L (hh z) (values_in g (r_data rel) z)) - d_score D (law_of L (hh z) (values_in g (delete k (r_data rel)) z)))%R
        else let z := default [] (g' k) in let h := match r_clusters rel !! z with Some _ => hh z | None => h0 end in
          (d_score D (law_of L h (v :: values_in g (r_data rel) z)) - d_score D (law_of L h (values_in g (r_data rel) z)))%R
      | None => 0%R end).
    assert (lps' = Some <$> (F <$> ord' obs)) as ->.
    { assert (forall k, k ∈ ord' obs -> k ∈ obs) as Hin. { intros k Hk. by rewrite (Ho' _), elem_of_elements in Hk. }
      clear Hap. revert lps' HF Hin. generalize (ord' obs). intros ks. induction ks as [|k ks IH]; intros lps' HF Hin.
      { by inversion HF. }
      inversion HF as [|? l0 ? l1 H1 H2]; subst. rewrite !fmap_cons. f_equal; [|apply IH; [done|intros k' Hk'; apply Hin; by right]].
      clear IH HF H2. unfold F. case_decide as Et.
      - destruct H1 as (v & z & c & s' & Hv & Hz & Hc & Hu & Hl). rewrite Hv. fold g in Hz. rewrite Hz. cbn [default from_option].
        destruct (current_state L A rel hh k v z Hrel Hb Hv Hz) as (Hp & HFa & Hc2). rewrite Hc in Hc2. injection Hc2 as ->.
        rewrite (law_uninc D L _ _ _ HFa) in Hu. injection Hu as <-. rewrite (law_chain _ _ _ HFa) in Hl. injection Hl as <-.
        unfold Datatypes.id. fold g in Hp |- *. by rewrite (law_perm D L (hh z) _ _ Hp).
      - destruct H1 as (v & z & s' & Hv & Hz & Hc & Hl). rewrite Hv. fold g' in Hz. rewrite Hz. cbn [default from_option]. unfold Datatypes.id.
        assert (s' = default (d_new D (r_spec rel) []).1 (r_clusters rel !! z)) as ->.
        { destruct Hc as [-> | [-> [r0 ->]]]; [done|]. apply Hfix. }
        destruct (target_state A rel hh z [] Hrel Hb) as (h & Hth & E & HFa). rewrite E in Hl.
        assert (law_adm L v) as Hva by by apply (rh_known _ _ _ Hrel k v).
        rewrite law_chain in Hl by by constructor. injection Hl as <-. f_equal. unfold target_hyp in Hth.
        destruct (r_clusters rel !! z) as [c|] eqn:Ez; [by subst h|].
        pose proof (Hb z) as Hbz. rewrite Ez in Hbz. fold g in Hbz |- *. destruct (values_in g (r_data rel) z); [|done].
        rewrite !law_score_empty. f_equal. rewrite Hth in Hh0.
        pose proof (law_chain h [] v (List.Forall_cons _ _ _ Hva (List.Forall_nil _))) as E1.
        pose proof (law_chain h0 [] v (List.Forall_cons _ _ _ Hva (List.Forall_nil _))) as E2. rewrite Hh0 in E1. rewrite E1 in E2.
        rewrite !law_score_empty in E2. injection E2 as E2. lra. }
    rewrite lp_sum_Some. f_equal.
    destruct Hgs as (Hnd & Hgs & Hcov).
    assert (exists ks, gs.*2 = (fun k => [k]) <$> ks /\ xs = F <$> ks /\ Forall2 (fun zil k => g k = Some zil.1 /\ k ∈ obs) gs ks) as (ks & Hks & -> & HFk).
    { clear Hcov Hnd. revert xs HC Hgs. induction gs as [|[z il] gs IH]; intros xs HC Hgs.
      { inversion HC. exists []. split_and!; try done. }
      inversion HC as [|? x0 ? xs' H1 H2]; subst. destruct (IH xs' H2) as (ks & E1 & -> & HFk). { intros z' il' Hz'. apply (Hgs z' il'). by right. }
      destruct (Hgs z il) as (vals & (Hne' & Hnd & Hmap & Hblk) & Hel); [left|].
      destruct il as [|k il]; [done|].
      assert (k ∈ obs) as Hko. { apply Hobs. destruct (proj1 (Hel k) (elem_of_list_here _ _)) as (? & ? & _). done. }
      assert (il = []) as ->.
      { destruct il as [|k' il]; [done|]. exfalso. apply NoDup_cons in Hnd as [Hnk _]. apply Hnk.
        assert (k = k') as ->; [|left]. apply Hsep; [done| |].
        - apply Hobs. destruct (proj1 (Hel k')) as (? & ? & _); [right; left|done].
        - fold g in Hblk; rewrite (Hblk k), (Hblk k'); [done|right; left|left]. }
      exists (k :: ks). rewrite !fmap_cons, E1. split_and!; [done| |].
      2:{ constructor; [|done]. split; [|done]. apply Hblk. left. }
      f_equal. clear IH H2 HC. destruct H1 as (vals' & (_ & _ & Hmap' & _) & H1). simpl in Hmap'.
      destruct (r_data rel !! k) as [v|] eqn:Hv; [|done]. simpl in Hmap'. injection Hmap' as <-.
      pose proof (Hblk k (elem_of_list_here _ _)) as Hgk. unfold F. rewrite Hv. case_decide as Et.
      - rewrite H1. cbn [fst snd]. fold g in Hgk. rewrite Hgk. done.
      - destruct H1 as (k0 & z' & r0 & [= <-] & Hz' & H1). cbn [fst snd] in *. fold g' in Hz'. rewrite Hz'. cbn [default from_option]. unfold Datatypes.id.
        apply (H1 _). unfold target_hyp. destruct (r_clusters rel !! z') eqn:Ez; [done|]. rewrite <- Hh0. apply Hfix. }
    apply Rsum_perm, fmap_Permutation, NoDup_Permutation.
    - rewrite (Ho' _). apply NoDup_elements.
    - clear -Hnd HFk. induction HFk as [|[z il] k gs ks [Hg _] HFk IH]; [constructor|]. simpl in Hnd. apply NoDup_cons in Hnd as [Hz Hnd].
      constructor; [|by apply IH]. intros Hk. apply Hz. apply elem_of_list_lookup in Hk as [j Hj].
      destruct (Forall2_lookup_r _ _ _ _ _ HFk Hj) as ([z' il'] & Hj' & Hg' & _). simpl in *. rewrite Hg in Hg'. injection Hg' as <-.
      apply elem_of_list_fmap. exists (z, il'). split; [done|]. by eapply elem_of_list_lookup_2.
    - intros k. rewrite (Ho' _), elem_of_elements. split.
      + intros Hk. pose proof Hk as Hk2. apply Hobs in Hk as [Hd Hm']. destruct (Hcov k Hd Hm') as (z & il & Hz & Hbk).
        apply elem_of_list_lookup in Hz as [j Hj]. destruct (Forall2_lookup_l _ _ _ _ _ HFk Hj) as (k' & Hj' & Hg' & Hko).
        assert (k = k') as ->; [|by eapply elem_of_list_lookup_2]. apply Hsep; [done|done|]. fold g in Hbk. rewrite Hbk. symmetry. exact Hg'.
      + intros Hk. apply elem_of_list_lookup in Hk as [j Hj]. destruct (Forall2_lookup_r _ _ _ _ _ HFk Hj) as (zil & _ & _ & ?). done.
  Qed.
End Exact.
