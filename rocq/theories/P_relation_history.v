(** Histories of relation calls; exact undo; untouched blocks. *)
From stdpp Require Import gmap strings.
From Coq Require Import ZArith Reals Lia.
From Verif Require Import M_base M_crp M_domain M_dist M_relation S_crp S_crp_state S_relation
  P_base P_domain P_relation P_relation_score.

Section History.
  Context {V : Type} {D : Dist V} (L : lawful D).
  Implicit Types (rel : relation D).

  Lemma resample_loop_spec A (zs : list (list Z)) rel rel' r r' :
    rel_holds L A rel ->
    foldM (fun '(rel, r) z =>
      let* c := at_ (r_clusters rel !! z) in
      let* (c', r') := d_resample D c r in
      Ok (set_clusters D rel (<[z := c']> (r_clusters rel)), r')) (rel, r) zs = Ok (rel', r') ->
    rel_holds L A rel' /\ r_doms rel' = r_doms rel /\ r_spec rel' = r_spec rel /\
    r_data rel' = r_data rel /\ r_data_r rel' = r_data_r rel /\ dom (r_clusters rel') = dom (r_clusters rel).
  Proof.
    revert rel r. induction zs as [|z zs IH]; intros rel r Hrel H; cbn [foldM] in H.
    { injection H as <- <-. done. }
    apply obind_Ok in H as ([rel1 r1] & H1 & H).
    apply obind_Ok in H1 as (c & Hc%at_Ok & H1). apply obind_Ok in H1 as ([c' r2] & Hr & [= <- <-]).
    apply IH in H.
    - destruct H as (H1 & H2 & H3 & H4 & H5 & H6). simpl in *. split_and!; try done.
      rewrite H6, dom_insert_L. assert (z ∈ dom (r_clusters rel)) by (apply elem_of_dom; eauto). set_solver.
    - destruct Hrel as [Hd Hk Hi [hh Hb]]. split; simpl; [done..|].
      pose proof (Hb z) as Hz. rewrite Hc in Hz.
      destruct (values_in (block_of A (r_doms rel)) (r_data rel) z) as [|v l] eqn:Ev; [done|].
      injection Hz as ->. apply (law_resample D L) in Hr as [h' ->].
      2:{ rewrite <- Ev. apply values_in_Forall. intros k w Hw. by apply (Hk k w). }
      exists (fun z' => if decide (z' = z) then h' else hh z'). intros z'.
      destruct (decide (z' = z)) as [->|Hne].
      + rewrite lookup_insert, Ev. done.
      + rewrite lookup_insert_ne by done. apply Hb.
  Qed.

  Lemma rel_do_effect W A rel o W' rel' :
    world_holds W A -> rel_holds L A rel -> rel_call_ok o -> rel_do (W, rel) o = Ok (W', rel') ->
    exists A', world_holds W' A' /\ rel_holds L A' rel' /\ r_doms rel' = r_doms rel /\
      rel_call_effect (r_doms rel) A A' (r_data rel) (r_data rel') o.
  Proof.
    intros HW Hrel Hok H. destruct o as [items v r|items|items v|ord d e t r|ord mord d e ts r|ord r]; simpl in H.
    - apply obind_Ok in H as ([[W1 rel1] r1] & H & [= <- <-]).
      destruct (rel_incorporate_inv L W A rel items v r _ HW Hrel H) as (Hl & Hn & Hv).
      destruct (rel_incorporate_spec L W A rel items v r HW Hrel Hl Hn Hv)
        as (W2 & A2 & rel2 & r2 & H2 & HW2 & Hrel2 & Hd & _ & Hdata & Hext).
      rewrite H in H2. injection H2 as -> -> ->. exists A2. done.
    - apply obind_Ok in H as (rel1 & H & [= <- <-]).
      destruct (rel_unincorporate_inv W rel items _ H) as [v Hv].
      destruct (rel_unincorporate_spec L W A rel items v HW Hrel Hv) as (rel2 & H2 & Hrel2 & Hd & _ & Hdata).
      rewrite H in H2. injection H2 as ->. exists A. split_and!; try done; simpl; eauto.
    - apply obind_Ok in H as (rel1 & H & [= <- <-]).
      destruct (rel_update_value_inv L W A rel items v _ HW Hrel H) as [[v0 Hv0] Hv].
      destruct (rel_update_value_spec L W A rel items v v0 HW Hrel Hv0 Hv) as (rel2 & H2 & Hrel2 & Hd & _ & Hdata).
      rewrite H in H2. injection H2 as ->. exists A. split_and!; try done; simpl; eauto.
    - apply obind_Ok in H as ([rel1 r1] & H & H0). apply obind_Ok in H0 as (dm & Hdm & H0).
      apply obind_Ok in H0 as (dm' & Hdm' & [= <- <-]).
      destruct (rel_set_cluster_inv W A rel ord d e t r _ HW H) as (cur & m & s & Hc & Hne & Hm & Hs).
      destruct (rel_set_cluster_spec L W A rel ord d e t cur r m s HW Hrel Hok Hc Hne Hm Hs)
        as (rel2 & r2 & H2 & Hrel2 & Hd & _ & Hdata & _).
      rewrite H in H2. injection H2 as -> ->.
      destruct (world_holds_set_cluster W A d e t dm dm' HW Hdm Hdm') as [HW' Hs'].
      exists (clustering_move A d e t). done.
    - apply obind_Ok in H as ([[lps rel1] r1] & H & [= <- <-]). destruct Hok as [Ho Hm].
      pose proof H as H0. unfold logp_gibbs_exact, get_cluster_to_items_list in H0.
      apply obind_Ok in H0 as (gm & Hgm & H0). apply obind_Ok in Hgm as (m & Hm1%at_Ok & Hgm).
      apply obind_Ok in Hgm as (s & Hs%at_Ok & _).
      apply obind_Ok in H0 as (dm & Hdm & H0). apply obind_Ok in H0 as (cur & Hcur & _).
      pose proof (world_get_cluster_inv W A HW _ _ _ _ Hdm Hcur) as Hseat.
      destruct (rh_blocks _ _ _ Hrel) as [hh Hb].
      destruct (logp_gibbs_exact_spec L W A rel hh ord mord d e ts r m s cur HW Hrel Ho Hm Hb Hm1 Hs Hseat)
        as (lps2 & r2 & gs & H2 & _). rewrite H in H2. injection H2 as -> -> ->. exists A. done.
    - apply obind_Ok in H as ([rel1 r1] & H & [= <- <-]).
      destruct (resample_loop_spec A _ _ _ _ _ Hrel H) as (Hrel' & Hd & _ & Hdata & _).
      exists A. done.
  Qed.

  Lemma rel_history W A rel os W' rel' :
    world_holds W A -> rel_holds L A rel -> Forall rel_call_ok os -> foldM rel_do (W, rel) os = Ok (W', rel') ->
    exists A', world_holds W' A' /\ rel_holds L A' rel' /\ r_doms rel' = r_doms rel.
  Proof.
    revert W A rel. induction os as [|o os IH]; intros W A rel HW Hrel Hok H; cbn [foldM] in H.
    { injection H as <- <-. eauto. }
    apply Forall_cons in Hok as [Ho Hok]. apply obind_Ok in H as ([W1 rel1] & H1 & H).
    destruct (rel_do_effect W A rel o W1 rel1 HW Hrel Ho H1) as (A1 & HW1 & Hrel1 & Hd & _).
    destruct (IH W1 A1 rel1 HW1 Hrel1 Hok H) as (A2 & HW2 & Hrel2 & Hd2). exists A2. by rewrite Hd2, Hd.
  Qed.

  (** The index is a function of the data. *)
  Lemma index_unique (ds : list string) (data : gmap items_t V) idx idx' :
    index_holds ds data idx -> index_holds ds data idx' -> idx = idx'.
  Proof.
    intros H H'. apply map_eq. intros d. specialize (H d). specialize (H' d).
    destruct (idx !! d) as [m|], (idx' !! d) as [m'|]; try naive_solver.
    destruct H as [_ H], H' as [_ H']. f_equal. apply map_eq. intros e. by rewrite H, H'.
  Qed.

  (** Exact undo. *)
  Lemma rel_incorporate_unincorporate W A rel items v r W' rel' r' :
    world_holds W A -> rel_holds L A rel -> rel_incorporate D W rel items v r = Ok (W', rel', r') ->
    rel_unincorporate D W' rel' items = Ok rel.
  Proof.
    intros HW Hrel H.
    destruct (rel_incorporate_inv L W A rel items v r _ HW Hrel H) as (Hl & Hn & Hv).
    destruct (rel_incorporate_spec L W A rel items v r HW Hrel Hl Hn Hv)
      as (W2 & A2 & rel2 & r2 & H2 & HW2 & Hrel2 & Hd & Hspec & Hdata & Hext2).
    rewrite H in H2. injection H2 as <- <- <-.
    destruct (rel_unincorporate_spec L W' A2 rel' items v HW2 Hrel2) as (rel3 & H3 & Hrel3 & Hd3 & Hspec3 & Hdata3).
    { rewrite Hdata. apply lookup_insert. }
    rewrite H3. f_equal.
    rewrite Hdata, delete_insert in Hdata3 by done.
    assert (r_data_r rel3 = r_data_r rel) as Hidx.
    { eapply (index_unique (r_doms rel) (r_data rel)); [|apply Hrel].
      rewrite <- Hdata3, <- Hd, <- Hd3. apply Hrel3. }
    assert (r_clusters rel3 = r_clusters rel) as Hcl.
    { clear Hidx. unfold rel_incorporate in H.
      destruct (incorporate_items_spec L W A rel items r HW Hrel Hl Hn)
        as (W1 & idx & r1 & A1 & z & h0 & H1 & HW1 & Hext & Hz & Hih & _). rewrite H1 in H. cbn [obind set_data r_clusters] in H.
      rewrite lookup_insert in H. cbn [obind at_] in H. apply obind_Ok in H as (c' & Hc' & [= -> <- ->]).
      cbn [set_clusters r_doms r_spec r_clusters r_data r_data_r] in *.
      unfold rel_unincorporate in H3. apply obind_Ok in H3 as (? & _ & H3).
      apply obind_Ok in H3 as (v' & Hv'%at_Ok & H3). cbn [set_clusters r_data] in Hv'.
      cbn [set_data r_data] in Hv'. rewrite lookup_insert in Hv'. injection Hv' as <-.
      apply obind_Ok in H3 as (z' & Hz' & H3). apply (get_cluster_assignment_Ok W' A1 HW1) in Hz'.
      cbn [set_clusters r_doms] in Hz'. cbn [set_data r_doms] in Hz'. rewrite Hz in Hz'. injection Hz' as <-.
      apply obind_Ok in H3 as (cl & Hcl & H3). unfold cleanup_data in H3.
      apply obind_Ok in H3 as (idx' & _ & [= <-]). cbn [set_data set_data_r set_clusters r_clusters] in *.
      unfold remove_from_cluster in Hcl. rewrite lookup_insert in Hcl. cbn [obind at_] in Hcl.
      destruct (rh_blocks _ _ _ Hrel) as [hh Hb]. pose proof (Hb z) as Hbz.
      assert (Forall (law_adm L) (values_in (block_of A (r_doms rel)) (r_data rel) z)) as HF.
      { apply values_in_Forall. intros k w Hw. by apply (rh_known _ _ _ Hrel k w). }
      destruct (values_in (block_of A (r_doms rel)) (r_data rel) z) as [|w l].
      - rewrite Hbz in Hc'. simpl in Hc'. apply (law_inc D L) in Hc' as [_ ->]; [|done].
        rewrite (law_uninc D L) in Hcl by (by constructor). cbn [obind] in Hcl.
        rewrite (law_N_zero D L) in Hcl. simpl in Hcl. injection Hcl as <-.
        rewrite !delete_insert_delete. by apply delete_notin.
      - rewrite Hbz in Hc'. cbn [default] in Hc'. apply (law_inc D L) in Hc' as [_ ->]; [|done].
        rewrite (law_uninc D L) in Hcl by (by constructor). cbn [obind] in Hcl.
        rewrite (law_N_zero D L) in Hcl. simpl in Hcl. injection Hcl as <-.
        rewrite !insert_insert. by apply insert_id. }
    destruct rel, rel3. simpl in *. congruence.
  Qed.

  (** A move touches no block but those the moved observations leave or enter. *)
  Lemma move_loop_frame W A rel d0 e0 t0 todo cl r cl' r' z :
    world_holds W A -> 
    foldM (move_one D W rel d0 e0 t0) (cl, r) todo = Ok (cl', r') ->
    (forall k, k ∈ todo -> is_Some (block_of A (r_doms rel) k) /\ mentions (r_doms rel) k d0 e0) ->
    (forall k, k ∈ todo -> block_of A (r_doms rel) k <> Some z /\
       block_of (clustering_move A d0 e0 t0) (r_doms rel) k <> Some z) ->
    cl' !! z = cl !! z.
  Proof.
    intros HW. revert cl r. induction todo as [|k todo IH]; intros cl r H Hin Hz; cbn [foldM] in H.
    { by injection H as <- <-. }
    apply obind_Ok in H as ([cl1 r1] & H1 & H).
    rewrite (IH cl1 r1 H); [|intros; apply Hin; by right|intros; apply Hz; by right].
    destruct (Hz k ltac:(by left)) as [Hz1 Hz2]. destruct (Hin k ltac:(by left)) as [Hs Hm].
    unfold move_one in H1. apply obind_Ok in H1 as (v & _ & H1).
    apply obind_Ok in H1 as (zp & Hzp & H1). apply (get_cluster_assignment_Ok W A HW) in Hzp.
    apply obind_Ok in H1 as (cl0 & Hcl0 & H1). apply obind_Ok in H1 as (zn & Hzn & H1).
    destruct (get_cluster_assignment_gibbs_Ok W A HW rel k d0 e0 t0 Hs Hm) as (zn' & Hzn' & Hb).
    rewrite Hzn in Hzn'. injection Hzn' as <-.
    assert (zp <> z) by congruence. assert (zn <> z) by congruence.
    assert (cl0 !! z = cl !! z) as <-.
    { unfold remove_from_cluster in Hcl0. apply obind_Ok in Hcl0 as (c & _ & Hcl0).
      apply obind_Ok in Hcl0 as (c' & _ & [= <-]). destruct (d_N_zero D c').
      - by rewrite lookup_delete_ne.
      - by rewrite lookup_insert_ne. }
    destruct (cl0 !! zn) as [c|].
    - apply obind_Ok in H1 as (? & _ & H1). apply obind_Ok in H1 as (c' & _ & [= <- <-]).
      by rewrite lookup_insert_ne.
    - destruct (make_new_distribution D rel r) as [c r2]. apply obind_Ok in H1 as (c' & _ & [= <- <-]).
      by rewrite lookup_insert_ne.
  Qed.

  Lemma rel_set_cluster_frame W A rel ord d0 e0 t0 r rel' r' z :
    world_holds W A -> rel_holds L A rel -> order_ok ord ->
    rel_set_cluster D W rel ord d0 e0 t0 r = Ok (rel', r') ->
    (forall k, is_Some (r_data rel !! k) -> mentions (r_doms rel) k d0 e0 ->
       block_of A (r_doms rel) k <> Some z /\
       block_of (clustering_move A d0 e0 t0) (r_doms rel) k <> Some z) ->
    r_clusters rel' !! z = r_clusters rel !! z.
  Proof.
    intros HW Hrel Hord H Hz. unfold rel_set_cluster in H.
    apply obind_Ok in H as (dm & _ & H). apply obind_Ok in H as (cur & _ & H).
    apply obind_Ok in H as (? & _ & H). apply obind_Ok in H as (m & Hm%at_Ok & H).
    apply obind_Ok in H as (s & Hs%at_Ok & H). apply obind_Ok in H as ([cl' r1] & H & [= <- <-]).
    destruct (index_lookup L rel A d0 e0 m s Hrel Hm Hs) as [Hobs _].
    assert (forall k, k ∈ ord s <-> is_Some (r_data rel !! k) /\ mentions (r_doms rel) k d0 e0) as Hin.
    { intros k. by rewrite (Hord s), elem_of_elements, Hobs, elem_of_observations. }
    simpl. eapply move_loop_frame; [done|exact H| |].
    - intros k Hk. apply Hin in Hk as [[v Hv] Hm1]. split; [|done]. by apply (rh_known _ _ _ Hrel k v).
    - intros k Hk. apply Hin in Hk as [? ?]. by apply Hz.
  Qed.

  (** When every fresh object has the hyperparameters [h0] and no
      hyperparameter transition has happened, all blocks have them. *)
  Section Const.
    Context (h0 : law_hyp L) (Hfresh : forall sp r, (d_new D sp r).1 = law_of L h0 []).

    Lemma blocks_hold_const_ext hh g data cl :
      blocks_hold L hh g data cl -> (forall z, hh z = h0) -> blocks_hold L (fun _ => h0) g data cl.
    Proof. intros H Hh. eapply blocks_ext; [done|done|]. intros; apply Hh. Qed.

    Lemma rel_incorporate_const W A rel items v r W' rel' r' :
      world_holds W A -> rel_holds L A rel ->
      blocks_hold L (fun _ => h0) (block_of A (r_doms rel)) (r_data rel) (r_clusters rel) ->
      rel_incorporate D W rel items v r = Ok (W', rel', r') ->
      exists A', world_holds W' A' /\ rel_holds L A' rel' /\ r_doms rel' = r_doms rel /\
        r_data rel' = <[items := v]> (r_data rel) /\ clustering_extends A A' (zip (r_doms rel) items) /\
        blocks_hold L (fun _ => h0) (block_of A' (r_doms rel)) (r_data rel') (r_clusters rel').
    Proof.
      intros HW Hrel Hb H.
      destruct (rel_incorporate_inv L W A rel items v r _ HW Hrel H) as (Hl & Hn & Hv).
      destruct (rel_incorporate_spec L W A rel items v r HW Hrel Hl Hn Hv)
        as (W2 & A2 & rel2 & r2 & H2 & HW2 & Hrel2 & Hd & Hspec & Hdata & Hext2).
      rewrite H in H2. injection H2 as <- <- <-.
      destruct (incorporate_items_spec L W A rel items r HW Hrel Hl Hn)
        as (W1 & idx & r1 & A1 & z & h1 & H1 & HW1 & Hext & Hz & Hih & r0 & Hr0).
      unfold rel_incorporate in H. rewrite H1 in H. cbn [obind set_data r_clusters] in H.
      rewrite lookup_insert in H. cbn [obind at_] in H. apply obind_Ok in H as (c' & Hc' & [= -> <- ->]).
      exists A1. split; [done|]. rewrite Hfresh in Hr0. rewrite <- Hr0 in Hc'.
      assert (blocks_hold L (fun _ => h0) (block_of A1 (r_doms rel)) (r_data rel) (r_clusters rel)) as Hb1.
      { eapply blocks_ext; [exact Hb| |done]. intros k [w Hw]. eapply block_of_extends; [done|].
        by apply (rh_known _ _ _ Hrel k w). }
      destruct (blocks_add L _ _ _ _ items v z h0 Hb1) as (_ & c2 & Hc2 & Hb2); [|done|done|done|].
      { intros k w Hw. by apply (rh_known _ _ _ Hrel k w). }
      rewrite Hc' in Hc2. injection Hc2 as <-.
      cbn [set_clusters set_data r_doms r_data r_clusters] in *. rewrite insert_insert in *.
      assert (blocks_hold L (fun _ => h0) (block_of A1 (r_doms rel)) (<[items:=v]> (r_data rel)) (<[z:=c']> (r_clusters rel))) as Hb3.
      { eapply blocks_hold_const_ext; [exact Hb2|]. intros z'. destruct (r_clusters rel !! z); [done|]. by destruct (decide _). }
      split_and!; try done. destruct Hrel2 as [? Hk2 ? ?]. split; simpl in *; try done.
      - intros d Hd'. destruct Hext as [-> _]. by apply Hrel.
      - intros k w Hw. split; [|by apply (Hk2 k w)]. apply lookup_insert_Some in Hw as [[<- <-]|[_ Hw]].
        + rewrite Hz. eauto.
        + rewrite <- (block_of_extends A A1 _ _ _ Hext); by apply (rh_known _ _ _ Hrel k w).
      - eauto.
    Qed.

    Lemma move_loop_const W A rel d0 e0 t0 todo dn cl r :
      world_holds W A -> rel_holds L A rel ->
      let A' := clustering_move A d0 e0 t0 in
      blocks_hold L (fun _ => h0) (g_partial A A' (r_doms rel) dn) (r_data rel) cl ->
      NoDup (dn ++ todo) ->
      (forall k, k ∈ todo -> is_Some (r_data rel !! k) /\ mentions (r_doms rel) k d0 e0) ->
      exists cl' r', foldM (move_one D W rel d0 e0 t0) (cl, r) todo = Ok (cl', r') /\
        blocks_hold L (fun _ => h0) (g_partial A A' (r_doms rel) (dn ++ todo)) (r_data rel) cl'.
    Proof.
      intros HW Hrel A'. revert dn cl r.
      induction todo as [|k todo IH]; intros dn cl r Hb Hnd Htodo; cbn [foldM].
      { exists cl, r. split; [done|]. by rewrite app_nil_r. }
      destruct (Htodo k) as [[v Hv] Hm]; [left|].
      destruct (rh_known _ _ _ Hrel k v Hv) as [[z Hz] _].
      pose proof (proj2 (get_cluster_assignment_Ok W A HW rel k z) Hz) as Hgz.
      destruct (get_cluster_assignment_gibbs_Ok W A HW rel k d0 e0 t0) as (z' & Hgz' & Hz'); [eauto|done|].
      assert (k ∉ dn) as Hkd.
      { apply NoDup_app in Hnd as (_ & Hnd & _). intros Hin. apply (Hnd k Hin). left. }
      destruct (move_one_spec L W rel d0 e0 t0 _ _ cl r k v z z' h0 Hb) as (cl0 & cl' & r' & -> & _ & Hb'); try done.
      { intros k' v' Hv'. by apply (rh_known _ _ _ Hrel k' v'). }
      { unfold g_partial. by rewrite decide_False. }
      cbn [obind]. replace (dn ++ k :: todo) with ((dn ++ [k]) ++ todo) in * by by rewrite <- app_assoc.
      eapply IH.
      - eapply blocks_ext; [exact Hb'| |].
        + intros k' Hk'. simpl. unfold g_partial.
          destruct (decide (k' = k)) as [->|Hne].
          * rewrite decide_True by (apply elem_of_app; right; left). done.
          * destruct (decide (k' ∈ dn)) as [Hi|Hi].
            -- rewrite decide_True by (apply elem_of_app; by left). done.
            -- rewrite decide_False; [done|]. rewrite elem_of_app, elem_of_list_singleton. naive_solver.
        + intros z1 _. simpl. destruct (cl0 !! z'); [done|]. by destruct (decide _).
      - done.
      - intros k' Hk'. apply Htodo. by right.
    Qed.

    Lemma rel_set_cluster_const W A rel ord d0 e0 t0 r rel' r' :
      world_holds W A -> rel_holds L A rel -> order_ok ord ->
      blocks_hold L (fun _ => h0) (block_of A (r_doms rel)) (r_data rel) (r_clusters rel) ->
      rel_set_cluster D W rel ord d0 e0 t0 r = Ok (rel', r') ->
      blocks_hold L (fun _ => h0) (block_of (clustering_move A d0 e0 t0) (r_doms rel)) (r_data rel) (r_clusters rel').
    Proof.
      intros HW Hrel Hord Hb H. unfold rel_set_cluster in H.
      apply obind_Ok in H as (dm & _ & H). apply obind_Ok in H as (cur & _ & H).
      apply obind_Ok in H as (? & _ & H). apply obind_Ok in H as (m & Hm%at_Ok & H).
      apply obind_Ok in H as (s & Hs%at_Ok & H). apply obind_Ok in H as ([cl' r1] & H & [= <- <-]).
      destruct (index_lookup L rel A d0 e0 m s Hrel Hm Hs) as [Hobs _].
      assert (forall k, k ∈ ord s <-> is_Some (r_data rel !! k) /\ mentions (r_doms rel) k d0 e0) as Hin.
      { intros k. by rewrite (Hord s), elem_of_elements, Hobs, elem_of_observations. }
      destruct (move_loop_const W A rel d0 e0 t0 (ord s) [] (r_clusters rel) r HW Hrel) as (cl2 & r2 & H2 & Hb2).
      { eapply blocks_ext; [exact Hb| |done]. intros k _. unfold g_partial. by rewrite decide_False by apply not_elem_of_nil. }
      { simpl. rewrite (Hord s). apply NoDup_elements. }
      { intros k Hk. by apply Hin. }
      rewrite H in H2. injection H2 as <- <-. simpl in *. eapply blocks_ext; [exact Hb2| |done].
      intros k Hk. unfold g_partial. destruct (decide (k ∈ ord s)) as [Hi|Hi]; [done|].
      rewrite block_of_move_other; [done|]. rewrite Hin in Hi. naive_solver.
    Qed.
  End Const.
End History.
