(** Relations of either kind: effect of each method. *)
From stdpp Require Import gmap strings.
From Coq Require Import ZArith Reals Lia.
From Verif Require Import M_base M_crp M_domain M_dist M_relation M_noisy M_irm S_crp S_crp_state S_relation S_irm
  P_base P_domain P_relation P_relation_score P_relation_history.

Section RelExt.
  Context {V : Type} {D : Dist V} (L : lawful D).
  Implicit Types (rel : relation D).

  Lemma rel_holds_ext A A' rel :
    (forall d, d ∈ r_doms rel -> d ∈ dom A') ->
    (forall items d e, is_Some (r_data rel !! items) -> mentions (r_doms rel) items d e -> seat A' d e = seat A d e) ->
    rel_holds L A rel -> rel_holds L A' rel.
  Proof.
    intros Hd Hs [_ Hk Hi [hh Hb]].
    assert (forall k, is_Some (r_data rel !! k) -> block_of A (r_doms rel) k = block_of A' (r_doms rel) k) as Hbl.
    { intros k Hk'. apply block_of_ext. intros d e Hm. symmetry. by eapply Hs. }
    split.
    - done.
    - intros items v Hv. destruct (Hk items v Hv) as [Hb' Ha]. split; [|done]. by rewrite <- Hbl by eauto.
    - done.
    - exists hh. eapply blocks_ext; [done| |done]. intros k Hk'. by apply Hbl.
  Qed.

  Lemma rel_holds_mentions A rel items d e :
    rel_holds L A rel -> is_Some (r_data rel !! items) -> mentions (r_doms rel) items d e -> is_Some (seat A d e).
  Proof.
    intros Hrel [v Hv] Hm. destruct (rh_known _ _ _ Hrel items v Hv) as [Hb _].
    apply block_of_is_Some in Hb as [_ Hb]. by apply Hb.
  Qed.

  Lemma rel_holds_length A rel items :
    rel_holds L A rel -> is_Some (r_data rel !! items) -> length items = length (r_doms rel).
  Proof.
    intros Hrel [v Hv]. destruct (rh_known _ _ _ Hrel items v Hv) as [Hb _].
    by apply block_of_is_Some in Hb as [Hl _].
  Qed.

  Lemma has_observation_spec A rel d e :
    rel_holds L A rel -> d ∈ r_doms rel ->
    has_observation D rel d e = Ok (bool_decide (observations_of (r_doms rel) (r_data rel) d e <> ∅)).
  Proof.
    intros Hrel Hd. unfold has_observation. pose proof (rh_index _ _ _ Hrel d) as Hi.
    destruct (r_data_r rel !! d) as [m|]; [|done]. simpl. f_equal. apply bool_decide_ext.
    destruct Hi as [_ Hi]. rewrite elem_of_dom, Hi. destruct (decide _) as [->|Hn].
    - split; [by intros [? ?]|done].
    - split; eauto.
  Qed.

  Lemma index_entry A rel d e :
    rel_holds L A rel -> d ∈ r_doms rel -> observations_of (r_doms rel) (r_data rel) d e <> ∅ ->
    exists m s, r_data_r rel !! d = Some m /\ m !! e = Some s.
  Proof.
    intros Hrel Hd Hne. pose proof (rh_index _ _ _ Hrel d) as Hi.
    destruct (r_data_r rel !! d) as [m|]; [|done]. destruct Hi as [_ Hi].
    exists m. eexists. split; [done|]. rewrite Hi. by rewrite decide_False.
  Qed.

  Lemma gibbs_pure W A rel ord mord d e ts r :
    world_holds W A -> rel_holds L A rel -> order_ok ord -> map_order_ok mord ->
    d ∈ r_doms rel -> observations_of (r_doms rel) (r_data rel) d e <> ∅ ->
    exists lps r', logp_gibbs_exact D W rel ord mord d e ts r = Ok (lps, rel, r') /\ length lps = length ts.
  Proof.
    intros HW Hrel Ho Hm Hd Hne. destruct (index_entry A rel d e Hrel Hd Hne) as (m & s & Hm1 & Hs).
    assert (exists items, is_Some (r_data rel !! items) /\ mentions (r_doms rel) items d e) as (k & Hk & Hkm).
    { apply set_choose_L in Hne as [k Hk]. apply elem_of_observations in Hk. eauto. }
    destruct (rel_holds_mentions A rel k d e Hrel Hk Hkm) as [cur Hcur].
    destruct (rh_blocks _ _ _ Hrel) as [hh Hb].
    destruct (logp_gibbs_exact_spec L W A rel hh ord mord d e ts r m s cur HW Hrel Ho Hm Hb Hm1 Hs Hcur)
      as (lps & r' & gs & -> & _ & HF).
    exists lps, r'. split; [done|]. symmetry. by eapply Forall2_length.
  Qed.
End RelExt.

Section Any.
  Context {V : Type}.
  Implicit Types (a : any_rel V) (lk : string -> option (any_rel V)) (ar : string -> option nat).

  Definition lookup_arity ar lk : Prop := forall name a, lk name = Some a -> ar name = Some (length (any_doms a)).

  Lemma any_type_doms a a' o : any_type a' o = any_type a o -> any_doms a' = any_doms a.
  Proof. intros H. apply (f_equal t_domains) in H. by destruct a, a'. Qed.
  Lemma any_type_base a a' o : any_type a' o = any_type a o -> any_base a' = any_base a.
  Proof. intros H. apply (f_equal t_base) in H. by destruct a, a'. Qed.
  Lemma any_type_obs a a' o o' : any_type a' o = any_type a o -> any_type a' o' = any_type a o'.
  Proof.
    intros H. apply (f_equal (fun t => match t with TClean ds _ D sp => TClean ds o' D sp | TNoisy ds _ E sp b => TNoisy ds o' E sp b end)) in H.
    by destruct a, a'.
  Qed.
  Lemma clean_type D (rel rel' : relation D) o :
    r_doms rel' = r_doms rel -> r_spec rel' = r_spec rel -> any_type (AClean D rel') o = any_type (V:=V) (AClean D rel) o.
  Proof. intros H1 H2. simpl. by rewrite H1, H2. Qed.

  Lemma elem_of_obs a d e :
    observations_of (any_doms a) (any_data a) d e <> ∅ <-> any_mentions a d e.
  Proof.
    unfold any_mentions. split.
    - intros Hne. apply set_choose_L in Hne as [k Hk]. apply elem_of_observations in Hk. eauto.
    - intros (k & Hk & Hm) He. assert (k ∈ observations_of (any_doms a) (any_data a) d e) as Hin
        by by apply elem_of_observations.
      rewrite He in Hin. set_solver.
  Qed.

  (** The noisy data and the emission data have the same keys. *)
  Lemma noisy_obs (n : noisy V) d e :
    n_data n = snd <$> r_data (n_rel n) ->
    observations_of (r_doms (n_rel n)) (r_data (n_rel n)) d e = observations_of (r_doms (n_rel n)) (n_data n) d e.
  Proof. intros H. unfold observations_of. by rewrite H, dom_fmap_L. Qed.
  Lemma noisy_key (n : noisy V) items :
    n_data n = snd <$> r_data (n_rel n) -> is_Some (n_data n !! items) <-> is_Some (r_data (n_rel n) !! items).
  Proof. intros H. by rewrite H, lookup_fmap, fmap_is_Some. Qed.

  Lemma any_holds_mono ar ar' A a :
    (forall name k, ar name = Some k -> ar' name = Some k) -> any_holds ar A a -> any_holds ar' A a.
  Proof. intros H. destruct a as [D rel|n]; [done|]. intros (HL & Hd & k & Hk & ? & ?). split_and!; [done..|]. exists k. auto. Qed.

  Lemma any_holds_ext ar A A' a :
    (forall d, d ∈ any_doms a -> d ∈ dom A') ->
    (forall d e, any_mentions a d e -> seat A' d e = seat A d e) ->
    any_holds ar A a -> any_holds ar A' a.
  Proof.
    intros Hd Hs. destruct a as [D rel|n]; simpl in *.
    - intros [L Hrel]. exists L. eapply rel_holds_ext; [done| |done]. intros. apply Hs. by eexists.
    - intros ([L Hrel] & Hdom & Hk). split; [|done]. exists L. eapply rel_holds_ext; [done| |done].
      intros items d e Hi Hm. apply Hs. exists items. split; [|done]. simpl. by apply noisy_key.
  Qed.

  Lemma any_holds_mentions ar A a d e : any_holds ar A a -> any_mentions a d e -> is_Some (seat A d e).
  Proof.
    intros H (items & Hi & Hm). destruct a as [D rel|n]; simpl in *.
    - destruct H as [L Hrel]. by eapply rel_holds_mentions.
    - destruct H as ([L Hrel] & Hdom & _). eapply rel_holds_mentions; [done|by apply noisy_key|done].
  Qed.

  Lemma any_holds_dom ar A a d : any_holds ar A a -> d ∈ any_doms a -> d ∈ dom A.
  Proof.
    intros H. destruct a as [D rel|n]; simpl in *.
    - destruct H as [L Hrel]. apply Hrel.
    - destruct H as ([L Hrel] & _). apply Hrel.
  Qed.

  Lemma any_holds_length ar A a items : any_holds ar A a -> is_Some (any_data a !! items) ->
    length items = length (any_doms a).
  Proof.
    intros H Hi. destruct a as [D rel|n]; simpl in *.
    - destruct H as [L Hrel]. by eapply rel_holds_length.
    - destruct H as ([L Hrel] & Hdom & _). eapply rel_holds_length; [done|by apply noisy_key].
  Qed.

  Lemma any_mentions_doms a d e : any_mentions a d e -> d ∈ any_doms a.
  Proof. intros (items & _ & Hm). by eapply mentions_dom. Qed.

  Lemma any_has_observation_spec ar A a d e :
    any_holds ar A a -> d ∈ any_doms a ->
    exists b, any_has_observation a d e = Ok b /\ (b = true <-> any_mentions a d e).
  Proof.
    intros H Hd. exists (bool_decide (observations_of (any_doms a) (any_data a) d e <> ∅)).
    split; [|by rewrite bool_decide_eq_true, elem_of_obs].
    destruct a as [D rel|n]; simpl in *.
    - destruct H as [L Hrel]. by eapply has_observation_spec.
    - destruct H as ([L Hrel] & Hdom & _). rewrite <- noisy_obs by done. by eapply has_observation_spec.
  Qed.

  Lemma any_gibbs_pure ar o W A a d e ts r :
    world_holds W A -> any_holds ar A a -> orders_ok o -> any_mentions a d e ->
    exists lps r', any_gibbs o W a d e ts r = Ok (lps, a, r') /\ length lps = length ts.
  Proof.
    intros HW H (Ho & Hm & _) Hmen. pose proof (any_mentions_doms a d e Hmen) as Hd. apply elem_of_obs in Hmen.
    destruct a as [D rel|n]; simpl in *.
    - destruct H as [L Hrel].
      destruct (gibbs_pure L W A rel (o_vecs o) (o_groups o) d e ts r HW Hrel Ho Hm Hd Hmen) as (lps & r' & -> & Hl).
      simpl. eauto.
    - destruct H as ([L Hrel] & Hdom & _). rewrite <- noisy_obs in Hmen by done.
      destruct (gibbs_pure L W A (n_rel n) (o_vecs o) (o_groups o) d e ts r HW Hrel Ho Hm Hd Hmen) as (lps & r' & -> & Hl).
      simpl. exists lps, r'. split; [|done]. by destruct n.
  Qed.

  Lemma any_set_cluster_spec ar o W A a d e t cur r :
    world_holds W A -> any_holds ar A a -> orders_ok o -> any_mentions a d e ->
    seat A d e = Some cur -> t <> cur ->
    exists a' r', any_set_cluster o W a d e t r = Ok (a', r') /\
      any_holds ar (clustering_move A d e t) a' /\
      any_type a' true = any_type a true /\ any_data a' = any_data a.
  Proof.
    intros HW H (Ho & _) Hmen Hcur Hne. pose proof (any_mentions_doms a d e Hmen) as Hd. apply elem_of_obs in Hmen.
    destruct a as [D rel|n]; simpl in *.
    - destruct H as [L Hrel]. destruct (index_entry L A rel d e Hrel Hd Hmen) as (m & s & Hm1 & Hs).
      destruct (rel_set_cluster_spec L W A rel (o_vecs o) d e t cur r m s HW Hrel Ho Hcur Hne Hm1 Hs)
        as (rel' & r' & -> & Hrel' & Hdm & Hsp & Hdt & _).
      simpl. exists (AClean D rel'), r'. simpl. rewrite Hdm, Hsp. split_and!; eauto.
    - destruct H as ([L Hrel] & Hdom & Hk). rewrite <- noisy_obs in Hmen by done.
      destruct (index_entry L A (n_rel n) d e Hrel Hd Hmen) as (m & s & Hm1 & Hs).
      destruct (rel_set_cluster_spec L W A (n_rel n) (o_vecs o) d e t cur r m s HW Hrel Ho Hcur Hne Hm1 Hs)
        as (rel' & r' & -> & Hrel' & Hdm & Hsp & Hdt & _).
      simpl. eexists _, r'. split; [done|]. simpl. rewrite Hdm, Hsp. split_and!; try done; [by exists L|]. by rewrite Hdt.
  Qed.

  Lemma any_hparams_spec ar o A a r a' r' :
    any_holds ar A a -> any_hparams o a r = Ok (a', r') ->
    any_holds ar A a' /\ any_type a' true = any_type a true /\ any_data a' = any_data a.
  Proof.
    intros H Hh. destruct a as [D rel|n]; simpl in *.
    - destruct H as [L Hrel]. apply obind_Ok in Hh as ([rel1 r1] & Hh & [= <- <-]).
      unfold transition_cluster_hparams in Hh.
      apply (resample_loop_spec L A) in Hh as (H1 & H2 & Hsp & H4 & _); [|done].
      simpl. rewrite H2, Hsp. split_and!; eauto.
    - destruct H as ([L Hrel] & Hdom & Hk). apply obind_Ok in Hh as ([rel1 r1] & Hh & [= <- <-]).
      unfold transition_cluster_hparams in Hh.
      apply (resample_loop_spec L A) in Hh as (H1 & H2 & Hsp & H4 & _); [|done].
      simpl. rewrite H2, H4, Hsp. split_and!; eauto.
  Qed.

  Lemma base_index_insert (k : nat) (data : gmap items_t V) (m : gmap items_t (gset items_t)) (items : items_t) (v : V) :
    data !! items = None -> base_index_holds k data m ->
    base_index_holds k (<[items := v]> data) (b2n_insert m (take k items) items).
  Proof.
    intros Hn H bi it. pose proof (H bi it) as Hbi. unfold b2n_insert. destruct (decide (bi = take k items)) as [->|Hb].
    - rewrite lookup_insert. change (default ∅ (Some ?x)) with x. rewrite elem_of_union, elem_of_singleton, Hbi.
      destruct (decide (it = items)) as [->|Hi].
      + rewrite lookup_insert. naive_solver.
      + rewrite lookup_insert_ne by done. naive_solver.
    - rewrite lookup_insert_ne, Hbi by done. destruct (decide (it = items)) as [->|Hi].
      + rewrite lookup_insert, Hn. split; [intros [[? ?] _]; done|naive_solver].
      + rewrite lookup_insert_ne by done. done.
  Qed.

  Lemma base_index_delete (k : nat) (data : gmap items_t V) (m : gmap items_t (gset items_t)) (s : gset items_t) (items : items_t) :
    base_index_holds k data m -> m !! take k items = Some s ->
    base_index_holds k (delete items data)
      (if bool_decide (s ∖ {[items]} = ∅) then delete (take k items) m else <[take k items := s ∖ {[items]}]> m).
  Proof.
    intros H Hs bi it.
    assert (default ∅ ((if bool_decide (s ∖ {[items]} = ∅) then delete (take k items) m
              else <[take k items := s ∖ {[items]}]> m) !! bi) =
            if decide (bi = take k items) then s ∖ {[items]} else default ∅ (m !! bi)) as ->.
    { case_bool_decide as He.
      - destruct (decide (bi = take k items)) as [->|].
        + by rewrite lookup_delete, He.
        + by rewrite lookup_delete_ne.
      - destruct (decide (bi = take k items)) as [->|].
        + by rewrite lookup_insert.
        + by rewrite lookup_insert_ne. }
    pose proof (H bi it) as Hb. destruct (decide (bi = take k items)) as [->|Hne].
    - rewrite Hs in Hb. simpl in Hb. rewrite elem_of_difference, elem_of_singleton, Hb.
      destruct (decide (it = items)) as [->|Hi].
      + rewrite lookup_delete. split; [naive_solver|]. intros [[? ?] _]. done.
      + rewrite lookup_delete_ne by done. naive_solver.
    - rewrite Hb. destruct (decide (it = items)) as [->|Hi].
      + rewrite lookup_delete. split; [naive_solver|]. intros [[? ?] _]. done.
      + rewrite lookup_delete_ne by done. done.
  Qed.

  Lemma any_incorporate_spec ar lk W A a items v r W' a' r' :
    world_holds W A -> any_holds ar A a -> lookup_arity ar lk ->
    any_incorporate lk W a items v r = Ok (W', a', r') ->
    exists A', world_holds W' A' /\ any_holds ar A' a' /\
      any_type a' true = any_type a true /\
      length items = length (any_doms a) /\
      any_data a !! items = None /\ any_data a' = <[items := v]> (any_data a) /\
      clustering_extends A A' (zip (any_doms a) items).
  Proof.
    intros HW H Hlk Hi. destruct a as [D rel|n]; simpl in *.
    - destruct H as [L Hrel]. apply obind_Ok in Hi as ([[W1 rel1] r1] & Hi & [= <- <- <-]).
      destruct (rel_incorporate_inv L W A rel items v r _ HW Hrel Hi) as (Hl & Hn & Hv).
      destruct (rel_incorporate_spec L W A rel items v r HW Hrel Hl Hn Hv)
        as (W2 & A2 & rel2 & r2 & H2 & HW2 & Hrel2 & Hd & Hsp & Hdata & Hext).
      rewrite Hi in H2. injection H2 as <- <- <-. exists A2. simpl. rewrite Hd, Hsp. split_and!; eauto.
    - destruct H as ([L Hrel] & Hdom & k & Hk & Hkl & Hidx).
      apply obind_Ok in Hi as (b & Hb & Hi). apply obind_Ok in Hi as ([[W1 n1] r1] & Hi & [= <- <- <-]).
      unfold base_of in Hb. apply obind_Ok in Hb as (ab & Hab%idx_Ok & [= <-]).
      unfold noisy_incorporate in Hi. apply obind_Ok in Hi as (bi & Hbi & Hi).
      apply obind_Ok in Hi as (bv & Hbv & Hi). apply obind_Ok in Hi as ([[W1' rel1] r1'] & Hi & [= -> <- ->]).
      destruct (rel_incorporate_inv L W A (n_rel n) items (bv, v) r _ HW Hrel Hi) as (Hl & Hn & Hv).
      destruct (rel_incorporate_spec L W A (n_rel n) items (bv, v) r HW Hrel Hl Hn Hv)
        as (W2 & A2 & rel2 & r2 & H2 & HW2 & Hrel2 & Hd & Hsp & Hdata & Hext).
      rewrite Hi in H2. injection H2 as <- <- <-.
      assert (n_data n !! items = None) as Hnn.
      { apply eq_None_not_Some. rewrite noisy_key by done. rewrite Hn. by intros [? ?]. }
      exists A2. simpl. rewrite Hd, Hsp. split_and!; try done; [by exists L|by rewrite Hdata, fmap_insert, Hdom|].
      exists k. split_and!; try done.
      apply Hlk in Hab. rewrite Hk in Hab. injection Hab as ->.
      unfold get_base_items in Hbi. simpl in Hbi. case_bool_decide; [|done]. injection Hbi as <-.
      by apply base_index_insert.
  Qed.

  Lemma any_unincorporate_spec ar lk W A a items :
    world_holds W A -> any_holds ar A a -> lookup_arity ar lk ->
    (forall b, any_base a = Some b -> is_Some (lk b)) ->
    is_Some (any_data a !! items) ->
    exists a', any_unincorporate lk W a items = Ok a' /\ any_holds ar A a' /\
      any_type a' true = any_type a true /\ any_data a' = delete items (any_data a).
  Proof.
    intros HW H Hlk Hbase Hi. destruct a as [D rel|n]; simpl in *.
    - destruct H as [L Hrel]. destruct Hi as [v Hv].
      destruct (rel_unincorporate_spec L W A rel items v HW Hrel Hv) as (rel2 & -> & Hrel2 & Hd & Hsp & Hdata).
      simpl. eexists. split; [done|]. simpl. rewrite Hd, Hsp. split_and!; eauto.
    - destruct H as ([L Hrel] & Hdom & k & Hk & Hkl & Hidx).
      destruct (Hbase (n_base n)) as [ab Hab]; [done|]. unfold base_of. rewrite Hab. simpl.
      unfold noisy_unincorporate. rewrite bool_decide_eq_true_2 by by apply elem_of_dom. simpl.
      pose proof (proj1 (noisy_key n items Hdom) Hi) as [pv Hpv].
      destruct (rel_unincorporate_spec L W A (n_rel n) items pv HW Hrel Hpv) as (rel2 & -> & Hrel2 & Hd & Hsp & Hdata).
      simpl. pose proof (Hlk _ _ Hab) as Hlk'. rewrite Hk in Hlk'. injection Hlk' as Hka.
      pose proof (rel_holds_length L A (n_rel n) items Hrel) as Hlen. rewrite Hpv in Hlen. specialize (Hlen (ltac:(eauto))).
      unfold cleanup_base_to_noisy, get_base_items. simpl. rewrite <- Hka, bool_decide_eq_true_2 by lia. simpl.
      assert (exists s, n_b2n n !! take k items = Some s /\ items ∈ s) as (s & Hs & Hin).
      { pose proof (proj2 (Hidx (take k items) items) (conj Hi eq_refl)) as Hin.
        destruct (n_b2n n !! take k items) as [s|]; simpl in Hin; [eauto|set_solver]. }
      rewrite Hs. simpl. eexists. split; [done|]. simpl. rewrite Hd, Hsp, Hdata, fmap_delete, <- Hdom.
      split_and!; try done; [by exists L|]. exists k. split_and!; try done. by apply base_index_delete.
  Qed.

  Lemma any_unincorporate_inv lk W a items a' :
    any_unincorporate lk W a items = Ok a' ->
    is_Some (any_data a !! items) /\ forall b, any_base a = Some b -> is_Some (lk b).
  Proof.
    intros H. destruct a as [D rel|n]; simpl in *.
    - apply obind_Ok in H as (rel1 & H & _). split; [by eapply rel_unincorporate_inv|done].
    - apply obind_Ok in H as (b & Hb & H). apply obind_Ok in H as (n1 & H & _).
      unfold base_of in Hb. apply obind_Ok in Hb as (ab & Hab%idx_Ok & _).
      unfold noisy_unincorporate in H. apply obind_Ok in H as (u & Hn & _).
      apply assert_Ok, bool_decide_eq_true, elem_of_dom in Hn. split; [done|]. intros ? [= <-]. eauto.
  Qed.
End Any.
