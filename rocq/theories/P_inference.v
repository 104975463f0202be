(** Proofs: inference never changes the stored observations of a relation that is not latent. *)
From stdpp Require Import gmap strings.
From Coq Require Import ZArith Reals.
From Verif Require Import M_base M_math M_crp M_domain M_dist M_relation M_noisy M_irm M_hirm M_inference M_gendb_trans
  S_crp S_crp_state S_relation S_irm S_hirm S_inference S_gendb_state P_base P_gendb_data P_gendb_blank.

(** * One relation *)
Section Rel.
Context {V : Type}.

(** Same declaration, same tuples; same values unless [p]. *)
Definition rel_keeps (p : Prop) (a a' : any_rel V) : Prop :=
  as_well a a' /\ keeps_observations p (any_data a) (any_data a').
Lemma as_well_trans (a b c : any_rel V) : as_well a b -> as_well b c -> as_well a c.
Proof. intros (H1 & H2 & H3) (H4 & H5 & H6). split; [congruence|]. split; auto. Qed.
Lemma type_doms (a a' : any_rel V) o : any_type a' o = any_type a o -> any_doms a' = any_doms a.
Proof. destruct a, a'; intros H; cbn in *; congruence. Qed.
Lemma type_any (a a' : any_rel V) o o' : any_type a' o = any_type a o -> any_type a' o' = any_type a o'.
Proof.
  assert (forall (x : any_rel V), any_type x o' = match any_type x o with TClean ds _ D sp => TClean ds o' D sp | TNoisy ds _ E sp b => TNoisy ds o' E sp b end) as Hx
    by (by intros []).
  intros H. by rewrite !Hx, H.
Qed.

Lemma rel_keeps_refl p a : rel_keeps p a a.
Proof. split; [by split_and!|]. split; done. Qed.
Lemma rel_keeps_trans p a b c : rel_keeps p a b -> rel_keeps p b c -> rel_keeps p a c.
Proof.
  intros (H1 & H2 & H3) (H4 & H5 & H6). split; [by eapply as_well_trans|split; [congruence|]].
  intros Hp. rewrite (H6 Hp), (H3 Hp). done.
Qed.
Lemma as_well_same (a a' : any_rel V) : any_type a' true = any_type a true -> dom (any_data a') = dom (any_data a) -> any_data_r a' = any_data_r a ->
  (coherent a -> coherent a') -> as_well a a'.
Proof.
  intros H1 H2 H3 H4. split; [done|]. split; [done|]. intros Hi l j d e Hl Hd He. rewrite H3. rewrite (type_doms _ _ _ H1) in Hd.
  apply (Hi l j d e); [|done|done]. apply elem_of_dom. rewrite <- H2. by apply elem_of_dom.
Qed.
Lemma rel_keeps_weaken (p q : Prop) a a' : (p -> q) -> rel_keeps p a a' -> rel_keeps q a a'.
Proof. intros Hpq (H1 & H2 & H3). split; [done|]. split; [done|]. intros Hq. apply H3. tauto. Qed.

Section Clean.
Context {T : Type} (D : Dist T).
Definition skel (rel : relation D) := (r_doms rel, r_data rel, r_spec rel, r_data_r rel).
Lemma skel_current W rel l x rel' : logp_gibbs_exact_current D W rel l = Ok (x, rel') -> skel rel' = skel rel.
Proof. unfold logp_gibbs_exact_current. intros H. inv_ok H. done. Qed.
Lemma skel_variant W rel d e t l r x rel' r' : logp_gibbs_exact_variant D W rel d e t l r = Ok (x, rel', r') -> skel rel' = skel rel.
Proof.
  unfold logp_gibbs_exact_variant. intros H. apply obind_Ok in H as (? & _ & H). apply obind_Ok in H as (? & _ & H).
  apply obind_Ok in H as (z & _ & H). destruct (make_new_distribution D rel r) as [pr r1].
  apply obind_Ok in H as (? & _ & H). apply obind_Ok in H as (? & _ & H). apply obind_Ok in H as (? & _ & [= _ <- _]).
  by destruct (r_clusters rel !! z).
Qed.
Lemma skel_table W d e cur t g rel r x rel' r' : logp_gibbs_exact_table D W d e cur t g rel r = Ok (x, rel', r') -> skel rel' = skel rel.
Proof.
  unfold logp_gibbs_exact_table. intros H.
  apply (foldM_inv _ (fun st => skel st.1.2 = skel rel)) in H; [done|done|].
  intros [[lp rl] r0] [k l] [[lp' rl'] r1] _ IH. simpl in *. case_bool_decide; intros Hs.
  - apply obind_Ok in Hs as ([y rl2] & Hy & [= <- <- <-]). apply skel_current in Hy. congruence.
  - apply obind_Ok in Hs as ([[y rl2] r2] & Hy & [= <- <- <-]). apply skel_variant in Hy. congruence.
Qed.
Lemma skel_gibbs W rel so mo d e ts r x rel' r' : logp_gibbs_exact D W rel so mo d e ts r = Ok (x, rel', r') -> skel rel' = skel rel.
Proof.
  unfold logp_gibbs_exact. intros H. apply obind_Ok in H as (g & _ & H). apply obind_Ok in H as (dm & _ & H).
  apply obind_Ok in H as (cur & _ & H).
  apply (foldM_inv _ (fun st => skel st.1.2 = skel rel)) in H; [done|done|].
  intros [[lp rl] r0] t [[lp' rl'] r1] _ IH Hs. simpl in *.
  apply obind_Ok in Hs as ([[y rl2] r2] & Hy & [= <- <- <-]). apply skel_table in Hy. congruence.
Qed.
Lemma skel_set_cluster W rel so d e t r rel' r' : rel_set_cluster D W rel so d e t r = Ok (rel', r') -> skel rel' = skel rel.
Proof. unfold rel_set_cluster. intros H. inv_ok H. done. Qed.
Lemma skel_hparams rel mo r rel' r' : transition_cluster_hparams D rel mo r = Ok (rel', r') -> skel rel' = skel rel.
Proof.
  unfold transition_cluster_hparams. intros H.
  apply (foldM_inv _ (fun st => skel st.1 = skel rel)) in H; [done|done|].
  intros [rl r0] z [rl' r1] _ IH Hs. simpl in *. apply obind_Ok in Hs as (c & _ & Hs). apply obind_Ok in Hs as ([c' r2] & _ & [= <- <-]). done.
Qed.
Lemma skel_to_cluster W rel items v rel' : incorporate_to_cluster D W rel items v = Ok rel' -> skel rel' = skel rel.
Proof. unfold incorporate_to_cluster. intros H. inv_ok H. done. Qed.
Lemma skel_from_cluster W rel items rel' : unincorporate_from_cluster D W rel items = Ok rel' -> skel rel' = skel rel.
Proof. unfold unincorporate_from_cluster. intros H. inv_ok H. done. Qed.
Lemma update_effect W rel items v rel' : rel_update_value D W rel items v = Ok rel' ->
  r_doms rel' = r_doms rel /\ is_Some (r_data rel !! items) /\ r_data rel' = <[items := v]> (r_data rel) /\ r_spec rel' = r_spec rel /\ r_data_r rel' = r_data_r rel.
Proof.
  unfold rel_update_value. intros H. apply obind_Ok in H as (r1 & H1 & H). apply obind_Ok in H as (r2 & H2 & H).
  apply obind_Ok in H as (w & Hw & [= <-]). apply at_Ok in Hw.
  apply skel_from_cluster in H1 as [= Hd1 Hx1 Hs1 Hr1]. apply skel_to_cluster in H2 as [= Hd2 Hx2 Hs2 Hr2]. simpl.
  split; [congruence|]. rewrite Hx2, Hx1 in Hw |- *. split_and!; [eauto|done|congruence|congruence].
Qed.
End Clean.
Lemma skel_clean p (D : Dist V) (rel rel' : relation D) : skel D rel' = skel D rel -> rel_keeps p (AClean D rel) (AClean D rel').
Proof.
  intros [= H1 H2 H3 H4]. split; [|split; cbn; [by rewrite H2|done]]. apply as_well_same; cbn; [by rewrite H1, H3|by rewrite H2|done|done].
Qed.
Lemma skel_noisy p (n : noisy V) b rel : skel _ rel = skel _ (n_rel n) -> rel_keeps p (ANoisy n) (ANoisy (n_set n (n_data n) b rel)).
Proof.
  intros [= H1 H2 H3 H4]. split; [|split; cbn; done]. apply as_well_same; cbn; [by rewrite H1, H3|done|done|by rewrite H2].
Qed.

Lemma any_gibbs_keeps o W (a : any_rel V) d e ts r lps a' r' p : any_gibbs o W a d e ts r = Ok (lps, a', r') -> rel_keeps p a a'.
Proof.
  destruct a as [D rel|n]; simpl; intros H; apply obind_Ok in H as ([[l x] r1] & H & [= <- <- <-]); apply skel_gibbs in H.
  - by apply skel_clean.
  - by apply skel_noisy.
Qed.
Lemma any_set_cluster_keeps o W (a : any_rel V) d e t r a' r' p : any_set_cluster o W a d e t r = Ok (a', r') -> rel_keeps p a a'.
Proof.
  destruct a as [D rel|n]; simpl; intros H; apply obind_Ok in H as ([x r1] & H & [= <- <-]); apply skel_set_cluster in H;
    [by apply skel_clean|by apply skel_noisy].
Qed.
Lemma any_hparams_keeps o (a : any_rel V) r a' r' p : any_hparams o a r = Ok (a', r') -> rel_keeps p a a'.
Proof.
  destruct a as [D rel|n]; simpl; intros H; apply obind_Ok in H as ([x r1] & H & [= <- <-]); apply skel_hparams in H;
    [by apply skel_clean|by apply skel_noisy].
Qed.
Lemma any_to_cluster_keeps lk W (a : any_rel V) items v a' p : any_incorporate_to_cluster lk W a items v = Ok a' -> rel_keeps p a a'.
Proof.
  destruct a as [D rel|n]; simpl; intros H.
  - apply obind_Ok in H as (x & H & [= <-]). apply skel_to_cluster in H. by apply skel_clean.
  - apply obind_Ok in H as (b & _ & H). apply obind_Ok in H as (x & H & [= <-]). unfold noisy_incorporate_to_cluster in H.
    apply obind_Ok in H as (bv & _ & H). apply obind_Ok in H as (y & H & [= <-]). apply skel_to_cluster in H. by apply skel_noisy.
Qed.
Lemma any_from_cluster_keeps W (a : any_rel V) items a' p : any_unincorporate_from_cluster W a items = Ok a' -> rel_keeps p a a'.
Proof.
  destruct a as [D rel|n]; simpl; intros H.
  - apply obind_Ok in H as (x & H & [= <-]). apply skel_from_cluster in H. by apply skel_clean.
  - apply obind_Ok in H as (x & H & [= <-]). unfold noisy_unincorporate_from_cluster in H.
    apply obind_Ok in H as (y & H & [= <-]). apply skel_from_cluster in H. by apply skel_noisy.
Qed.
Lemma any_update_keeps lk W (a : any_rel V) items v a' : any_update_value lk W a items v = Ok a' -> rel_keeps True a a'.
Proof.
  destruct a as [D rel|n]; simpl; intros H.
  - apply obind_Ok in H as (x & H & [= <-]). apply update_effect in H as (H1 & [w Hw] & H2 & H3 & H4).
    assert (dom (r_data x) = dom (r_data rel)) as Ed by (rewrite H2; apply dom_insert_lookup_L; eauto).
    split; [|split; [done|tauto]]. apply as_well_same; cbn; [by rewrite H1, H3|done|done|done].
  - apply obind_Ok in H as (b & _ & H). apply obind_Ok in H as (x & H & [= <-]). unfold noisy_update_value in H.
    apply obind_Ok in H as (? & Ha & H). apply assert_Ok, bool_decide_eq_true, elem_of_dom in Ha.
    apply obind_Ok in H as (bv & _ & H). apply obind_Ok in H as (y & H & [= <-]). apply update_effect in H as (H1 & [w Hw] & H2 & H3 & H4).
    split; [|split; [simpl; by apply dom_insert_lookup_L|tauto]]. apply as_well_same; cbn; [by rewrite H1, H3|by apply dom_insert_lookup_L|done|].
    intros Hc. rewrite H2, !dom_insert_lookup_L; [done|eauto|done].
Qed.
End Rel.

(** * Latent values *)
Section Latent.
Context {V : Type}.
Definition noisy_same (n n' : noisy V) : Prop := as_well (ANoisy n) (ANoisy n') /\ n_data n' = n_data n.
Lemma noisy_same_refl n : noisy_same n n. Proof. split; [by split_and!|done]. Qed.
Lemma noisy_same_trans a b c : noisy_same a b -> noisy_same b c -> noisy_same a c.
Proof. intros [? ?] [? ?]. split; [by eapply as_well_trans|congruence]. Qed.
Lemma skel_same (n : noisy V) b rel : skel _ rel = skel _ (n_rel n) -> noisy_same n (n_set n (n_data n) b rel).
Proof. intros H. split; [|done]. apply (skel_noisy True n b rel H). Qed.
Lemma Forall2_same_trans (a b c : list (noisy V)) : Forall2 noisy_same a b -> Forall2 noisy_same b c -> Forall2 noisy_same a c.
Proof.
  intros H. revert c. induction H as [|x y a b Hxy _ IH]; intros c Hc.
  - by inversion Hc.
  - inversion Hc as [|? z ? c' Hyz Hc']; subst. constructor; [by eapply noisy_same_trans|by apply IH].
Qed.
Lemma noisy_same_keeps p n n' : noisy_same n n' -> rel_keeps p (ANoisy n) (ANoisy n').
Proof. intros [H1 H2]. split; [done|]. split; cbn; [by rewrite H2|done]. Qed.

Lemma take_same (W : world) (n : noisy V) obs items n' : take_noisy W n obs items = Ok n' -> noisy_same n n'.
Proof.
  unfold take_noisy, noisy_unincorporate_from_cluster. intros H. apply obind_Ok in H as (x & H & [= <-]).
  apply skel_from_cluster in H. by apply skel_same.
Qed.
Lemma put_same b (W : world) (n : noisy V) obs items n' : put_noisy b W n obs items = Ok n' -> noisy_same n n'.
Proof.
  unfold put_noisy, noisy_incorporate_to_cluster. intros H. apply obind_Ok in H as (v & _ & H). apply obind_Ok in H as (x & _ & H).
  apply obind_Ok in H as (y & H & [= <-]). apply skel_to_cluster in H. by apply skel_same.
Qed.
Lemma store_same o (W : world) bi (n : noisy V) n' obs : store_noisy o W bi n = Ok (n', obs) -> noisy_same n n'.
Proof.
  unfold store_noisy. intros H. apply (foldM_inv _ (fun st => noisy_same n st.1)) in H; [done| |].
  { by apply skel_same. }
  intros [n1 ob1] items [n2 ob2] _ IH Hs. simpl in *. apply obind_Ok in Hs as (v & _ & Hs). apply obind_Ok in Hs as (n3 & Hs & [= <- _]).
  eapply noisy_same_trans; [exact IH|]. by apply (take_same W n1 ob1 items).
Qed.
Lemma store_all_same o bi ns : forall Ws (ns' : list (noisy V)) obss, length Ws = length ns -> store_all o Ws bi ns = Ok (ns', obss) ->
  Forall2 noisy_same ns ns' /\ length obss = length ns.
Proof.
  induction ns as [|n ns IH]; intros [|W Ws] ns' obss Hl H; try discriminate.
  - injection H as <- <-. by split.
  - cbn [store_all] in H. apply obind_Ok in H as ([n1 ob] & Hn & H). apply obind_Ok in H as ([ns1 obs1] & Hns & [= <- <-]).
    apply store_same in Hn. destruct (IH Ws ns1 obs1 ltac:(simpl in Hl; lia) Hns) as [H1 H2]. split; [by constructor|simpl; lia].
Qed.
Lemma each_same f o bi : (forall W n obs items n', f W n obs items = Ok n' -> noisy_same n n') ->
  forall ns Ws (obss : list (gmap items_t V)) ns', length Ws = length ns -> length obss = length ns ->
  each_noisy f o Ws bi ns obss = Ok ns' -> Forall2 noisy_same ns ns'.
Proof.
  intros Hf. induction ns as [|n ns IH]; intros [|W Ws] [|ob obss] ns' Hl Hl2 H; try discriminate.
  - by injection H as <-.
  - cbn [each_noisy] in H. apply obind_Ok in H as (s & _ & H). apply obind_Ok in H as (n1 & Hn & H). apply obind_Ok in H as (ns1 & Hns & [= <-]).
    constructor; [|by apply (IH Ws obss); simpl in *; try lia].
    apply (foldM_inv _ (fun m => noisy_same n m)) in Hn; [done|apply noisy_same_refl|].
    intros m items m' _ Hm Hm'. eapply noisy_same_trans; [exact Hm|]. by eapply Hf.
Qed.
Lemma try_candidate_same lk o Wb Ws bi obss bl base (ns : list (noisy V)) v x base' ns' : length Ws = length ns -> length obss = length ns ->
  try_candidate lk o Wb Ws bi obss bl (base, ns) v = Ok (x, (base', ns')) -> rel_keeps False base base' /\ Forall2 noisy_same ns ns'.
Proof.
  intros H1 H2 H. unfold try_candidate in H. apply obind_Ok in H as (b1 & Hb1 & H). apply obind_Ok in H as (n1 & Hn1 & H).
  apply obind_Ok in H as (n2 & Hn2 & H). apply obind_Ok in H as (b2 & Hb2 & [= _ <- <-]).
  apply any_to_cluster_keeps with (p := False) in Hb1. apply any_from_cluster_keeps with (p := False) in Hb2.
  apply each_same in Hn1; [|intros; by eapply put_same|done|done]. pose proof (Forall2_length _ _ _ Hn1) as Hl.
  apply each_same in Hn2; [|intros; by eapply take_same|congruence|congruence].
  split; [by eapply rel_keeps_trans|by eapply Forall2_same_trans].
Qed.
Lemma incremental_same lk o Wb Ws bi obss (cands : list V) base ns l base' ns' : length Ws = length ns -> length obss = length ns ->
  incremental_logp lk o Wb Ws bi cands obss (base, ns) = Ok (l, (base', ns')) -> rel_keeps False base base' /\ Forall2 noisy_same ns ns'.
Proof.
  intros H1 H2 H. unfold incremental_logp in H.
  apply (foldM_inv _ (fun st => rel_keeps False base st.2.1 /\ Forall2 noisy_same ns st.2.2)) in H; [done| |].
  - split; [apply rel_keeps_refl|]. clear. induction ns; constructor; [apply noisy_same_refl|done].
  - intros [l0 [b0 n0]] v [l1 [b1 n1]] _ [Hb Hn] Hs. simpl in *. apply obind_Ok in Hs as ([x [b2 n2]] & Hs & [= _ <- <-]).
    pose proof (Forall2_length _ _ _ Hn) as Hl.
    apply try_candidate_same in Hs as [Hb' Hn']; [|congruence|congruence].
    split; [by eapply rel_keeps_trans|by eapply Forall2_same_trans].
Qed.
Lemma latent_value_keeps lk o Wb Ws bi base (ns : list (noisy V)) r base' ns' r' : length Ws = length ns ->
  transition_latent_value lk o Wb Ws bi (base, ns) r = Ok (base', ns', r') -> rel_keeps True base base' /\ Forall2 noisy_same ns ns'.
Proof.
  intros Hl H. unfold transition_latent_value in H. apply obind_Ok in H as ([[b1 n1] obss] & H1 & H).
  apply obind_Ok in H as ([cands r1] & _ & H). apply obind_Ok in H as ([lps [b2 n2]] & H2 & H).
  unfold unincorporate_and_store in H1. apply obind_Ok in H1 as (b1' & Hb1 & H1). apply obind_Ok in H1 as ([n1' ob'] & Hn1 & [= -> -> ->]).
  apply store_all_same in Hn1 as [Hn1 Hlo]; [|done]. pose proof (Forall2_length _ _ _ Hn1) as Hl1.
  apply any_from_cluster_keeps with (p := True) in Hb1.
  apply incremental_same in H2 as [Hb2 Hn2]; [|congruence|congruence]. pose proof (Forall2_length _ _ _ Hn2) as Hl2.
  unfold choose_and_incorporate in H. apply obind_Ok in H as ([i r2] & _ & H). apply obind_Ok in H as (v & _ & H).
  apply obind_Ok in H as (b3 & Hb3 & H). apply obind_Ok in H as (b4 & Hb4 & H). apply obind_Ok in H as (n4 & Hn4 & [= <- <- _]).
  apply any_to_cluster_keeps with (p := True) in Hb3. apply any_update_keeps in Hb4.
  apply each_same in Hn4; [|intros; by eapply put_same|congruence|congruence]. split.
  - eapply rel_keeps_trans; [exact Hb1|]. eapply rel_keeps_trans; [eapply rel_keeps_weaken; [|exact Hb2]; tauto|].
    eapply rel_keeps_trans; [exact Hb3|exact Hb4].
  - eapply Forall2_same_trans; [exact Hn1|]. by eapply Forall2_same_trans.
Qed.
End Latent.

(** * One IRM *)
Section IrmKeeps.
Context {V : Type}.

(** Same relations, each keeping its observations; the values of those in [p] may change. *)
Definition irm_keeps (p : string -> Prop) (ir ir' : irm V) : Prop :=
  i_schema ir' = i_schema ir /\ i_b2n ir' = i_b2n ir /\
  dom (i_rels ir') = dom (i_rels ir) /\
  forall name a, i_rels ir !! name = Some a -> exists a', i_rels ir' !! name = Some a' /\ rel_keeps (p name) a a'.
Lemma irm_keeps_refl p ir : irm_keeps p ir ir.
Proof. split_and!; try done. intros name a H. exists a. split; [done|apply rel_keeps_refl]. Qed.
Lemma irm_keeps_trans p a b c : irm_keeps p a b -> irm_keeps p b c -> irm_keeps p a c.
Proof.
  intros (A1 & A2 & A3 & A4) (B1 & B2 & B3 & B4). split_and!; [congruence..|].
  intros name x Hx. destruct (A4 name x Hx) as (y & Hy & Hxy). destruct (B4 name y Hy) as (z & Hz & Hyz).
  exists z. split; [done|]. by eapply rel_keeps_trans.
Qed.
Lemma irm_keeps_weaken (p q : string -> Prop) ir ir' : (forall n, p n -> q n) -> irm_keeps p ir ir' -> irm_keeps q ir ir'.
Proof.
  intros Hpq (A1 & A2 & A3 & A4). split_and!; try done. intros name x Hx. destruct (A4 name x Hx) as (y & Hy & Hxy).
  exists y. split; [done|]. by eapply rel_keeps_weaken; [apply Hpq|].
Qed.
Lemma set_rel_keeps (p : string -> Prop) ir name a a' : i_rels ir !! name = Some a -> rel_keeps (p name) a a' -> irm_keeps p ir (i_set_rel ir name a').
Proof.
  intros Ha Hk. split_and!; try done.
  - simpl. apply dom_insert_lookup_L. eauto.
  - intros n x Hx. simpl. destruct (decide (n = name)) as [->|Hne].
    + rewrite lookup_insert. exists a'. split; [done|]. congruence.
    + rewrite lookup_insert_ne by done. exists x. split; [done|apply rel_keeps_refl].
Qed.
Lemma set_domains_keeps (p : string -> Prop) ir W : irm_keeps p ir (i_set_domains ir W).
Proof. split_and!; try done. intros name a H. exists a. split; [done|apply rel_keeps_refl]. Qed.

Context (p : string -> Prop).
Lemma accumulate_keeps o d e ts l ir lps r st' : foldM (accumulate_logps (V:=V) o d e ts) (ir, lps, r) l = Ok st' -> irm_keeps p ir st'.1.1.
Proof.
  intros H. apply (foldM_inv _ (fun st => irm_keeps p ir st.1.1)) in H; [done|apply irm_keeps_refl|].
  intros [[ir1 l1] r1] name [[ir2 l2] r2] _ IH Hs. simpl in *. apply obind_Ok in Hs as (a & Ha%at_Ok & Hs). apply obind_Ok in Hs as ([|] & _ & Hs).
  - apply obind_Ok in Hs as ([[lp a'] r3] & Hg & Hs). apply obind_Ok in Hs as (? & _ & [= <- _ _]).
    eapply irm_keeps_trans; [exact IH|]. eapply set_rel_keeps; [exact Ha|]. by eapply any_gibbs_keeps.
  - by injection Hs as <- _ _.
Qed.
Lemma set_cluster_keeps o d e t l ir r st' : foldM (set_cluster_r (V:=V) o d e t) (ir, r) l = Ok st' -> irm_keeps p ir st'.1.
Proof.
  intros H. apply (foldM_inv _ (fun st => irm_keeps p ir st.1)) in H; [done|apply irm_keeps_refl|].
  intros [ir1 r1] name [ir2 r2] _ IH Hs. simpl in *. apply obind_Ok in Hs as (a & Ha%at_Ok & Hs). apply obind_Ok in Hs as ([|] & _ & Hs).
  - apply obind_Ok in Hs as ([a' r3] & Hg & [= <- _]).
    eapply irm_keeps_trans; [exact IH|]. eapply set_rel_keeps; [exact Ha|]. by eapply any_set_cluster_keeps.
  - by injection Hs as <- _.
Qed.
Lemma transition_item_keeps o (ir : irm V) d e r ir' r' : irm_transition_item o ir d e r = Ok (ir', r') -> irm_keeps p ir ir'.
Proof.
  unfold irm_transition_item, irm_item_logps. intros H. apply obind_Ok in H as ([[[ts lps] ir1] r1] & H1 & H).
  apply obind_Ok in H1 as (dm & _ & H1). apply obind_Ok in H1 as (w & _ & H1). apply obind_Ok in H1 as (nm & _ & H1).
  apply obind_Ok in H1 as ([[ir2 l2] r2] & H1 & [= <- <- <- <-]). apply accumulate_keeps in H1. simpl in H1.
  apply obind_Ok in H as ([i r3] & _ & H). apply obind_Ok in H as (ch & _ & H). apply obind_Ok in H as (dm' & _ & H). apply obind_Ok in H as (cur & _ & H).
  case_bool_decide; [by injection H as <- _|]. unfold irm_move_item in H.
  apply obind_Ok in H as (nm' & _ & H). apply obind_Ok in H as ([ir3 r4] & H2 & H). apply set_cluster_keeps in H2. simpl in H2.
  apply obind_Ok in H as (dm2 & _ & H). apply obind_Ok in H as (dm3 & _ & [= <- _]).
  eapply irm_keeps_trans; [exact H1|]. eapply irm_keeps_trans; [exact H2|apply set_domains_keeps].
Qed.
Lemma transition_all_keeps o (ir : irm V) r ir' r' : irm_transition_all o ir r = Ok (ir', r') -> irm_keeps p ir ir'.
Proof.
  unfold irm_transition_all, irm_transition. intros H.
  apply (foldM_inv _ (fun st => irm_keeps p ir st.1)) in H; [done|apply irm_keeps_refl|].
  intros [ir1 r1] d [ir2 r2] _ IH Hs. simpl in *. unfold irm_transition_domain in Hs. apply obind_Ok in Hs as (dm & _ & Hs).
  apply (foldM_inv _ (fun st => irm_keeps p ir st.1)) in Hs; [done|exact IH|].
  intros [ir3 r3] e [ir4 r4] _ IH2 Hs2. simpl in *. eapply irm_keeps_trans; [exact IH2|by eapply transition_item_keeps].
Qed.
Lemma hparams_keeps o l (ir : irm V) r st' : foldM (irm_hparams_one o) (ir, r) l = Ok st' -> irm_keeps p ir st'.1.
Proof.
  intros H. apply (foldM_inv _ (fun st => irm_keeps p ir st.1)) in H; [done|apply irm_keeps_refl|].
  intros [ir1 r1] name [ir2 r2] _ IH Hs. simpl in *. apply obind_Ok in Hs as (a & Ha%at_Ok & Hs). apply obind_Ok in Hs as ([a' r3] & Hg & [= <- _]).
  eapply irm_keeps_trans; [exact IH|]. eapply set_rel_keeps; [exact Ha|]. by eapply any_hparams_keeps.
Qed.
Lemma alpha_keeps lg l (ir : irm V) r st' : foldM (irm_alpha_one lg) (ir, r) l = Ok st' -> irm_keeps p ir st'.1.
Proof.
  intros H. apply (foldM_inv _ (fun st => irm_keeps p ir st.1)) in H; [done|apply irm_keeps_refl|].
  intros [ir1 r1] name [ir2 r2] _ IH Hs. simpl in *. apply obind_Ok in Hs as (dm & _ & Hs). apply obind_Ok in Hs as ([c r3] & _ & [= <- _]).
  eapply irm_keeps_trans; [exact IH|apply set_domains_keeps].
Qed.

Lemma get_noisies_lookup (ir : irm V) names : forall ns, get_noisies ir names = Ok ns ->
  Forall2 (fun name n => i_rels ir !! name = Some (ANoisy n)) names ns.
Proof.
  induction names as [|name names IH]; intros ns H; simpl in H; [injection H as <-; constructor|].
  apply obind_Ok in H as (a & Ha%at_Ok & H). apply obind_Ok in H as (n & Hn & H). apply obind_Ok in H as (ns' & Hns & [= <-]).
  constructor; [|by apply IH]. destruct a; [discriminate|]. by injection Hn as <-.
Qed.
(** Putting back noisy relations that kept their observations. *)
Lemma put_noisies_keeps l : forall (ir ir0 : irm V), irm_keeps p ir0 ir ->
  (forall name n', (name, n') ∈ l -> exists n, i_rels ir0 !! name = Some (ANoisy n) /\ noisy_same n n') ->
  irm_keeps p ir0 (put_noisies ir l).
Proof.
  induction l as [|[name n'] l IH]; intros ir ir0 Hk Hl; [done|]. cbn [put_noisies foldl].
  change (irm_keeps p ir0 (put_noisies (i_set_rel ir name (ANoisy n')) l)). apply IH; [|intros; apply Hl; by right].
  destruct (Hl name n' ltac:(by left)) as (n & Hn & Hs). destruct Hk as (K1 & K2 & K3 & K4). split_and!; [done|done| |].
  - simpl. rewrite <- K3. apply dom_insert_lookup_L. apply elem_of_dom. rewrite K3. apply elem_of_dom. eauto.
  - intros m x Hx. simpl. destruct (decide (m = name)) as [->|Hne].
    + rewrite lookup_insert. exists (ANoisy n'). split; [done|]. rewrite Hn in Hx. injection Hx as <-. by apply noisy_same_keeps.
    + rewrite lookup_insert_ne by done. by apply K4.
Qed.
Lemma zip_noisies (P : string -> noisy V -> Prop) names ns ns' : Forall2 P names ns -> Forall2 noisy_same ns ns' ->
  forall name n', (name, n') ∈ zip names ns' -> exists n, P name n /\ noisy_same n n'.
Proof.
  intros H. revert ns'. induction H as [|x n names ns Hx _ IH]; intros ns' Hs name n' Hin.
  - by apply elem_of_nil in Hin.
  - inversion Hs as [|? m ? ns1 Hm Hs1]; subst. simpl in Hin. apply elem_of_cons in Hin as [[= -> ->]|Hin]; [eauto|]. by eapply IH.
Qed.
Lemma irm_latents_keeps o (ir : irm V) name r ir' r' : p name -> irm_transition_latents o ir name r = Ok (ir', r') -> irm_keeps p ir ir'.
Proof.
  intros Hp H. unfold irm_transition_latents in H. apply obind_Ok in H as (b & _ & H). apply obind_Ok in H as (nl & _ & H).
  apply (foldM_inv _ (fun st => irm_keeps p ir st.1)) in H; [done|apply irm_keeps_refl|].
  intros [ir1 r1] bi [ir2 r2] _ IH Hs. simpl in *. apply obind_Ok in Hs as (base & Hb%at_Ok & Hs). apply obind_Ok in Hs as (ns & Hns & Hs).
  apply obind_Ok in Hs as ([[base' ns'] r3] & Ht & [= <- _]). apply get_noisies_lookup in Hns.
  apply latent_value_keeps in Ht as [Hk Hf]; [|by rewrite fmap_length, (Forall2_length _ _ _ Hns)].
  eapply irm_keeps_trans; [exact IH|].
  pose proof (put_noisies_keeps (zip _ ns') ir1 ir1 (irm_keeps_refl p ir1) (zip_noisies _ _ ns ns' Hns Hf)) as (K1 & K2 & K3 & K4).
  split_and!; [done|done| |].
  - simpl. rewrite <- K3. apply dom_insert_lookup_L. apply elem_of_dom. rewrite K3. apply elem_of_dom. eauto.
  - intros m x Hx. simpl. destruct (decide (m = name)) as [->|Hne].
    + rewrite lookup_insert. exists base'. split; [done|]. rewrite Hb in Hx. injection Hx as <-.
      eapply rel_keeps_weaken; [|exact Hk]. tauto.
    + rewrite lookup_insert_ne by done. by apply K4.
Qed.
End IrmKeeps.

(** inference.cc: one step of an IRM keeps all observations; the values of latent relations
    may change when it also moves those. *)
Lemma single_step_keeps {V} lg o (ir : irm V) b r ir' r' : irm_single_step lg o ir b r = Ok (ir', r') ->
  irm_keeps (fun n => b = true /\ latent_in (i_schema ir) n) ir ir'.
Proof.
  intros H. unfold irm_single_step in H. apply obind_Ok in H as ([ir1 r1] & H1 & H). apply obind_Ok in H as ([ir2 r2] & H2 & H).
  apply obind_Ok in H as ([ir3 r3] & H3 & H4).
  set (p := fun n => b = true /\ latent_in (i_schema ir) n).
  apply (transition_all_keeps p) in H2. apply (hparams_keeps p) in H3. apply (alpha_keeps p) in H4. simpl in *.
  eapply irm_keeps_trans; [|eapply irm_keeps_trans; [exact H2|]; eapply irm_keeps_trans; [exact H3|exact H4]].
  destruct b; [|injection H1 as <- _; apply irm_keeps_refl].
  apply (foldM_inv _ (fun st => irm_keeps p ir st.1)) in H1; [done|apply irm_keeps_refl|].
  intros [ir5 r5] name [ir6 r6] _ IH Hs. simpl in *. apply obind_Ok in Hs as (t & Ht%at_Ok & Hs).
  destruct (t_observed t) eqn:Et; [by injection Hs as <- _|].
  eapply irm_keeps_trans; [exact IH|]. eapply irm_latents_keeps; [|exact Hs].
  split; [done|]. exists t. split; [|done]. by rewrite <- (proj1 IH).
Qed.

(** * The HIRM *)
Section HirmKeeps.
Context {V : Type}.

Definition at_table (irms : gmap Z (irm V)) (t : Z) (name : string) (a : any_rel V) : Prop :=
  exists ir, irms !! t = Some ir /\ i_rels ir !! name = Some a.
Lemma lookup_at (h : hirm V) name a : hirm_lookup h name = Some a <->
  exists rc t, h_code h !! name = Some rc /\ crp_assignments (h_crp h) !! rc = Some t /\ at_table (h_irms h) t name a.
Proof.
  unfold hirm_lookup, get_relation, relation_to_irm, relation_to_table, at_table.
  destruct (h_code h !! name) as [rc|]; simpl; [|naive_solver].
  destruct (crp_assignments (h_crp h) !! rc) as [t|] eqn:Et; simpl; [|naive_solver].
  destruct (h_irms h !! t) as [ir|] eqn:Ei; simpl; [|naive_solver].
  destruct (i_rels ir !! name) eqn:Er; simpl; naive_solver.
Qed.

Definition code_inj (h : hirm V) : Prop := forall n1 n2 rc, h_code h !! n1 = Some rc -> h_code h !! n2 = Some rc -> n1 = n2.
(** Declared as [t] and well kept. *)
Definition well (t : t_rel V) (a : any_rel V) : Prop := any_type a (t_observed t) = t /\ coherent a /\ indexed a.
Lemma as_well_well t (a a' : any_rel V) : as_well a a' -> well t a -> well t a'.
Proof. intros (H1 & H2 & H3) (W1 & W2 & W3). split; [|by auto]. rewrite <- W1 at 2. by eapply type_any. Qed.
Definition hirm_keeps (p : string -> Prop) (h h' : hirm V) : Prop :=
  h_schema h' = h_schema h /\ h_code h' = h_code h /\ h_rel h' = h_rel h /\ h_b2n h' = h_b2n h /\
  forall name a, hirm_lookup h name = Some a ->
    exists a', hirm_lookup h' name = Some a' /\ keeps_observations (p name) (any_data a) (any_data a') /\
      forall t, h_schema h !! name = Some t -> well t a -> well t a'.
Lemma keeps_obs_refl (q : Prop) (m : gmap items_t V) : keeps_observations q m m.
Proof. by split. Qed.
Lemma keeps_obs_trans (q : Prop) (a b c : gmap items_t V) : keeps_observations q a b -> keeps_observations q b c -> keeps_observations q a c.
Proof. intros [H1 H2] [H3 H4]. split; [congruence|]. intros Hq. rewrite (H4 Hq), (H2 Hq). done. Qed.
Lemma hirm_keeps_refl p h : hirm_keeps p h h.
Proof. split_and!; try done. intros name a H. exists a. split; [done|]. split; [apply keeps_obs_refl|done]. Qed.
Lemma hirm_keeps_trans p a b c : hirm_keeps p a b -> hirm_keeps p b c -> hirm_keeps p a c.
Proof.
  intros (A1 & A2 & A3 & A4 & A5) (B1 & B2 & B3 & B4 & B5). split_and!; [congruence..|].
  intros name x Hx. destruct (A5 name x Hx) as (y & Hy & Hxy & Wxy). destruct (B5 name y Hy) as (z & Hz & Hyz & Wyz).
  exists z. split; [done|]. split; [by eapply keeps_obs_trans|]. intros t Ht Hw. apply Wyz; [by rewrite A1|by apply Wxy].
Qed.
Lemma hirm_keeps_inj p h h' : hirm_keeps p h h' -> code_inj h -> code_inj h'.
Proof. intros (_ & H & _) Hi n1 n2 rc. rewrite H. apply Hi. Qed.

(** One IRM replaced. *)
Lemma replace_irm_keeps p (h : hirm V) t ir ir' : h_irms h !! t = Some ir -> irm_keeps p ir ir' ->
  hirm_keeps p h (h_set_irms h (<[t := ir']> (h_irms h))).
Proof.
  intros Ht (K1 & K2 & K3 & K4). split_and!; try done. intros name a Ha.
  apply lookup_at in Ha as (rc & t' & Hc & Hs & ir0 & Hi & Hr). destruct (decide (t' = t)) as [->|Hne].
  - rewrite Ht in Hi. injection Hi as <-. destruct (K4 name a Hr) as (a' & Ha' & Hw & Hk). exists a'. split; [|split; [done|intros t' _; by apply as_well_well]].
    apply lookup_at. exists rc, t. split_and!; [done|done|]. exists ir'. simpl. by rewrite lookup_insert.
  - exists a. split; [|split; [apply keeps_obs_refl|done]]. apply lookup_at. exists rc, t'. split_and!; [done|done|]. exists ir0. simpl. by rewrite lookup_insert_ne.
Qed.
Lemma irm_step_keeps p lg o (h : hirm V) r t h' r' : hirm_irm_step lg o (h, r) t = Ok (h', r') -> hirm_keeps p h h'.
Proof.
  intros H. unfold hirm_irm_step in H. apply obind_Ok in H as (ir & Hi%at_Ok & H). apply obind_Ok in H as ([ir' r1] & Hs & [= <- _]).
  apply single_step_keeps in Hs. eapply replace_irm_keeps; [exact Hi|]. eapply irm_keeps_weaken; [|exact Hs]. intros n [? _]. discriminate.
Qed.
Lemma set_rel_hirm_keeps (p : string -> Prop) (h : hirm V) name a a' h' : h_set_rel h name a' = Ok h' -> hirm_lookup h name = Some a ->
  rel_keeps (p name) a a' -> hirm_keeps p h h' /\ hirm_lookup h' name = Some a'.
Proof.
  intros H Ha Hk. unfold h_set_rel in H. apply obind_Ok in H as (t & Ht & H). apply obind_Ok in H as (ir & Hi%at_Ok & [= <-]).
  unfold relation_to_table in Ht. apply obind_Ok in Ht as (rc & Hc%at_Ok & Ht%at_Ok).
  apply lookup_at in Ha as (rc' & t' & Hc' & Ht' & ir' & Hi' & Hr'). simplify_eq. split.
  - eapply replace_irm_keeps; [exact Hi|]. by eapply set_rel_keeps.
  - apply lookup_at. exists rc, t. split_and!; [done|done|]. eexists. simpl. rewrite lookup_insert. split; [done|]. simpl. by rewrite lookup_insert.
Qed.

(** ** Moving a relation *)
Lemma refill_rels (lk : string -> option (any_rel V)) (o : orders) (ir : irm V) (name : string) (data : gmap items_t V) (r : rng) (ir' : irm V) (r' : rng) (a : any_rel V) : orders_ok o -> i_rels ir !! name = Some a -> any_data a = ∅ ->
  refill lk o ir name data r = Ok (ir', r') ->
  (exists a', i_rels ir' !! name = Some a' /\ any_data a' = data /\ as_well a a') /\ forall n, n <> name -> i_rels ir' !! n = i_rels ir !! n.
Proof.
  intros Ho Ha He H. unfold refill in H.
  assert (forall l (ir1 : irm V) r1 a1, i_rels ir1 !! name = Some a1 -> foldM (refill_step lk name data) (ir1, r1) l = Ok (ir', r') ->
    (exists a', i_rels ir' !! name = Some a' /\ (forall k, any_data a' !! k = if decide (k ∈ l) then data !! k else any_data a1 !! k) /\ as_well a1 a') /\
    forall n, n <> name -> i_rels ir' !! n = i_rels ir1 !! n) as Hg.
  { induction l as [|k l IH]; intros ir1 r1 a1 Ha1 Hf; simpl in Hf.
    - injection Hf as <- _. split; [|done]. exists a1. split; [done|]. split; [|by split_and!]. intros k. rewrite decide_False; [done|apply not_elem_of_nil].
    - apply obind_Ok in Hf as ([ir2 r2] & Hs & Hf). apply obind_Ok in Hs as (v & Hv%at_Ok & Hs). unfold irm_incorporate in Hs.
      apply obind_Ok in Hs as (a1' & Ha1'%at_Ok & Hs). apply obind_Ok in Hs as ([[W a2] r3] & Hs & [= <- <-]).
      apply any_incorporate_more in Hs as [Hd M2 M3 M4]. simplify_eq.
      destruct (IH _ r3 a2 (lookup_insert (i_rels ir1) name a2) Hf) as [(a' & Ha' & Hk & Hw) Hn]. split.
      + exists a'. split; [done|]. split; [|eapply as_well_trans; [|exact Hw]; split_and!; [apply M2|intros Hc; by apply M3|done]]. intros k'. rewrite Hk, Hd. destruct (decide (k' ∈ l)).
        * rewrite decide_True; [done|]. by right.
        * destruct (decide (k' = k)) as [->|Hne].
          -- rewrite lookup_insert, decide_True; [done|by left].
          -- rewrite lookup_insert_ne, decide_False; [done| |done]. by intros [?|?]%elem_of_cons.
      + intros n Hne. rewrite Hn by done. simpl. by rewrite lookup_insert_ne. }
  destruct (Hg _ ir r a Ha H) as [(a' & Ha' & Hk & Hw) Hn]. split; [|done]. exists a'. split; [done|]. split; [|done]. apply map_eq. intros k. rewrite Hk, He, lookup_empty.
  case_decide as Hd; [done|]. symmetry. apply not_elem_of_dom. intros Hin. apply Hd.
  destruct Ho as (Hv & _). rewrite Hv. by apply elem_of_elements.
Qed.
Lemma try_fill_rels (h : hirm V) (o : orders) (name : string) (t : t_rel V) data ir (r : rng) ir' r' : orders_ok o -> try_fill h o name t data ir r = Ok (ir', r') ->
  (exists a', i_rels ir' !! name = Some a' /\ any_data a' = data /\ well t a') /\ forall n, n <> name -> i_rels ir' !! n = i_rels ir !! n.
Proof.
  intros Ho H. unfold try_fill in H. apply obind_Ok in H as (ir1 & H1 & H). apply add_to_irm_rels in H1 as (a & Hr & Ht & Hc & He).
  apply refill_rels with (a := a) in H as [(a' & Ha' & Hd & Hw) H3]; [|done|by rewrite Hr, lookup_insert|done].
  split; [exists a'; split_and!; [done|done|]; eapply as_well_well; [exact Hw|]; split_and!; [done|done|by apply empty_indexed]|].
  intros n Hn. rewrite H3, Hr by done. by rewrite lookup_insert_ne.
Qed.

Section Move.
Context (h : hirm V) (o : orders) (name : string) (t : t_rel V) (a0 : any_rel V) (cur : Z) (w : gmap Z R) (Ho : orders_ok o).
Context (Hcur : at_table (h_irms h) cur name a0).
Definition filled_at (irms : gmap Z (irm V)) (tb : Z) : Prop := exists a, at_table irms tb name a /\ any_data a = any_data a0 /\ (well t a0 -> well t a).
Definition others_at (irms irms' : gmap Z (irm V)) : Prop := forall n tb a, n <> name -> at_table irms tb n a -> at_table irms' tb n a.
Record trial_ok (seen : list Z) (st : trial V) : Prop := {
  to_others : others_at (h_irms h) (tr_irms st);
  to_cur : at_table (tr_irms st) cur name a0;
  to_aux : forall tb ir, tr_aux st = Some (tb, ir) -> tr_irms st !! tb = None;
  to_seen : forall tb, tb ∈ seen -> filled_at (tr_irms st) tb \/
    exists ir a, tr_aux st = Some (tb, ir) /\ i_rels ir !! name = Some a /\ any_data a = any_data a0 /\ (well t a0 -> well t a) }.
Lemma others_insert irms irms' tb ir ir' : others_at irms irms' -> irms' !! tb = Some ir -> (forall n, n <> name -> i_rels ir' !! n = i_rels ir !! n) ->
  others_at irms (<[tb := ir']> irms').
Proof.
  intros H Hi Hn n tb' a Hne Ha. destruct (H n tb' a Hne Ha) as (x & Hx & Hr). destruct (decide (tb' = tb)) as [->|].
  - exists ir'. rewrite lookup_insert. split; [done|]. rewrite Hi in Hx. injection Hx as <-. by rewrite Hn.
  - exists x. by rewrite lookup_insert_ne.
Qed.
Lemma try_table_ok seen st tb st' : trial_ok seen st -> tb ∉ seen -> try_table h o name t (any_data a0) cur w st tb = Ok st' -> trial_ok (tb :: seen) st'.
Proof.
  intros [T1 T2 T3 T4] Hns H. unfold try_table in H. destruct (tr_irms st !! tb) as [ir|] eqn:Ei.
  - apply obind_Ok in H as ([ir' r'] & Hf & H). apply obind_Ok in H as (a & Ha%at_Ok & [= <-]).
    assert (filled_at (<[tb := ir']> (tr_irms st)) tb /\ (forall n, n <> name -> i_rels ir' !! n = i_rels ir !! n) /\ (tb = cur -> ir' = ir)) as (Hfill & Hoth & Hsame).
    { case_bool_decide as Hc.
      - injection Hf as <- <-. subst tb. split_and!; [|done|done]. destruct T2 as (x & Hx & Hr). rewrite Ei in Hx. injection Hx as <-.
        exists a0. split; [|done]. exists ir. by rewrite lookup_insert.
      - apply try_fill_rels in Hf as [(a' & Ha' & Hd & Hw) Hn]; [|done]. split_and!; [|done|done]. exists a'. split; [|done]. exists ir'. by rewrite lookup_insert. }
    split; simpl.
    + by eapply others_insert.
    + destruct (decide (tb = cur)) as [->|Hne].
      * rewrite (Hsame eq_refl), (insert_id _ _ _ Ei). done.
      * destruct T2 as (x & Hx & Hr). exists x. by rewrite lookup_insert_ne.
    + intros tb' ir2 Hx. pose proof (T3 _ _ Hx) as Hy. rewrite lookup_insert_ne; [done|]. intros ->. congruence.
    + intros tb' [->|Hin]%elem_of_cons; [by left|]. destruct (T4 tb' Hin) as [(x & (irx & Hx & Hr) & Hd)|Hx]; [left|by right].
      exists x. split; [|done]. exists irx. rewrite lookup_insert_ne; [done|]. by intros ->.
  - apply obind_Ok in H as (? & Hau & H). apply assert_Ok in Hau. destruct (tr_aux st) eqn:Eau; [discriminate|].
    apply obind_Ok in H as ([ir' r'] & Hf & H). apply obind_Ok in H as (a & Ha%at_Ok & [= <-]).
    case_bool_decide as Hc.
    { subst tb. destruct T2 as (irx & Hirx & _). congruence. }
    apply try_fill_rels in Hf as [(a' & Ha' & Hd & Hw) Hn]; [|done].
    split; simpl.
    + done.
    + done.
    + intros tb' ir2 [= <- <-]. done.
    + intros tb' [->|Hin]%elem_of_cons; [right; exists ir', a'; by split_and!|]. destruct (T4 tb' Hin) as [Hx|(? & ? & Hx & _)]; [by left|discriminate].
Qed.
Lemma try_tables_ok l : forall seen st st', trial_ok seen st -> NoDup l -> (forall x, x ∈ l -> x ∉ seen) ->
  foldM (try_table h o name t (any_data a0) cur w) st l = Ok st' -> trial_ok (rev l ++ seen) st'.
Proof.
  induction l as [|tb l IH]; intros seen st st' HT Hnd Hd H; simpl in H.
  - by injection H as <-.
  - apply obind_Ok in H as (st1 & H1 & H). apply NoDup_cons in Hnd as [Hni Hnd].
    apply (try_table_ok seen) in H1; [|done|apply Hd; by left].
    simpl. rewrite <- app_assoc. simpl. apply (IH (tb :: seen) st1); [done|done| |done].
    intros x0 Hx0 [->|Hin]%elem_of_cons; [done|]. eapply Hd; [by right|done].
Qed.
Lemma trial_start r : trial_ok [] (Trial (h_irms h) None [] r).
Proof. split; simpl; [by intros ????|done|done|]. intros tb Hb. by apply elem_of_nil in Hb. Qed.
End Move.

Lemma remove_rels o (ir : irm V) name ir' : irm_remove_relation o ir name = Ok ir' -> i_rels ir' = delete name (i_rels ir).
Proof.
  unfold irm_remove_relation. intros H. apply obind_Ok in H as (a & _ & H). apply obind_Ok in H as (ir1 & Hf & [= <-]). simpl. f_equal.
  apply (foldM_inv _ (fun x => i_rels x = i_rels ir)) in Hf; [done|done|].
  intros x d x' _ IH Hs. apply obind_Ok in Hs as (s & _ & Hs). case_bool_decide.
  - apply obind_Ok in Hs as (? & _ & [= <-]). done.
  - by injection Hs as <-.
Qed.
Lemma untry_keeps o c name cur choice (irms irms' : gmap Z (irm V)) l : foldM (untry_table o c name cur choice) irms l = Ok irms' ->
  others_at name irms irms' /\ (forall a, at_table irms choice name a -> at_table irms' choice name a) /\ (irms !! choice = None -> irms' !! choice = None).
Proof.
  intros H. apply (foldM_inv _ (fun x => others_at name irms x /\ (forall a, at_table irms choice name a -> at_table x choice name a) /\ (irms !! choice = None -> x !! choice = None))) in H; [done|by split_and!; [intros ????|done|done]|].
  clear irms' H. intros x tb x' _ (IH1 & IH2 & IH3) Hs. unfold untry_table in Hs. apply obind_Ok in Hs as (ir & Hi%at_Ok & Hs).
  apply obind_Ok in Hs as (ir1 & H1 & Hs).
  assert ((forall n, n <> name -> i_rels ir1 !! n = i_rels ir !! n) /\ (tb = choice -> ir1 = ir)) as [Hn Hc].
  { clear Hs. case_bool_decide as Hc; [by injection H1 as <-|]. split; [|done]. apply obind_Ok in H1 as (? & _ & H1). apply remove_rels in H1.
    intros n Hne. rewrite H1. by rewrite lookup_delete_ne. }
  case_bool_decide as Hem.
  - apply obind_Ok in Hs as (? & _ & Hs). apply obind_Ok in Hs as (? & _ & Hs). apply obind_Ok in Hs as (? & _ & [= <-]). split_and!.
    + intros n tb' a Hne Ha. destruct (IH1 n tb' a Hne Ha) as (y & Hy & Hr). exists y. rewrite lookup_delete_ne; [done|].
      intros ->. rewrite Hi in Hy. injection Hy as <-. rewrite <- Hn, Hem, lookup_empty in Hr by done. discriminate.
    + intros a Ha. destruct (IH2 a Ha) as (y & Hy & Hr). exists y. rewrite lookup_delete_ne; [done|].
      intros ->. rewrite Hi in Hy. injection Hy as <-. rewrite <- (Hc eq_refl), Hem, lookup_empty in Hr. discriminate.
    + intros Hz. destruct (decide (tb = choice)) as [->|]; [by rewrite lookup_delete|]. rewrite lookup_delete_ne by done. by apply IH3.
  - injection Hs as <-. split_and!.
    + by eapply others_insert.
    + intros a Ha. destruct (IH2 a Ha) as (y & Hy & Hr). destruct (decide (tb = choice)) as [->|].
      * exists ir1. rewrite lookup_insert. split; [done|]. rewrite Hi in Hy. injection Hy as <-. by rewrite (Hc eq_refl).
      * exists y. by rewrite lookup_insert_ne.
    + intros Hz. rewrite lookup_insert_ne; [by apply IH3|]. intros ->. rewrite (IH3 Hz) in Hi. discriminate.
Qed.
Lemma move_relation_keeps p o (h : hirm V) name r h' r' : orders_ok o -> code_inj h -> hirm_transition_relation o h name r = Ok (h', r') -> hirm_keeps p h h'.
Proof.
  intros Ho Hinj H. unfold hirm_transition_relation, hirm_relation_logps in H. apply obind_Ok in H as ([tables st] & H1 & H).
  apply obind_Ok in H1 as (cur & Hcur & H1). apply obind_Ok in H1 as (a & Ha & H1). apply obind_Ok in H1 as (t & Hsch%at_Ok & H1).
  apply obind_Ok in H1 as (w & _ & H1). apply obind_Ok in H1 as (st1 & Hf & [= <- <-]).
  apply obind_Ok in H as ([i r1] & _ & H). apply obind_Ok in H as (choice & Hch%idx_Ok & H). apply obind_Ok in H as (h1 & Hs & [= <- _]).
  assert (hirm_lookup h name = Some a) as Hla by by (unfold hirm_lookup; rewrite Ha).
  unfold relation_to_table in Hcur. apply obind_Ok in Hcur as (rc & Hrc%at_Ok & Hcur%at_Ok).
  pose proof Hla as (rc' & t' & Hrc' & Ht' & Hat)%lookup_at. simplify_eq.
  apply (try_tables_ok h o name t a cur w Ho (sorted_keys w) [] _ st1) in Hf as [T1 T2 T3 T4];
    [|by apply trial_start|apply NoDup_sorted_keys|intros x _ Hx; by apply elem_of_nil in Hx].
  assert (choice ∈ rev (sorted_keys w) ++ []) as Hin.
  { rewrite app_nil_r, elem_of_list_In, <- in_rev, <- elem_of_list_In. by eapply elem_of_list_lookup_2. }
  specialize (T4 choice Hin). unfold hirm_settle in Hs. rewrite Hrc in Hs. cbn [obind at_] in Hs. rewrite Hcur in Hs. cbn [obind at_] in Hs.
  apply obind_Ok in Hs as (irms & Hu & Hs). apply untry_keeps in Hu as (U1 & U2 & U3).
  apply obind_Ok in Hs as (c1 & Hc1 & Hs). apply obind_Ok in Hs as (c2 & Hc2 & Hs). apply obind_Ok in Hs as (? & _ & Hs). apply obind_Ok in Hs as (? & _ & [= <-]).
  set (irms2 := match tr_aux st1 with Some (tb, ir) => if bool_decide (choice = tb) then <[choice := ir]> irms else irms | None => irms end) in *.
  assert (crp_assignments c2 = <[rc := choice]> (delete rc (crp_assignments (h_crp h)))) as Hass.
  { unfold crp_incorporate in Hc2. apply obind_Ok in Hc2 as (? & _ & Hc2). apply obind_Ok in Hc2 as (? & _ & [= <-]). simpl. f_equal.
    unfold crp_unincorporate in Hc1. apply obind_Ok in Hc1 as (? & _ & Hc1). apply obind_Ok in Hc1 as (? & _ & Hc1). apply obind_Ok in Hc1 as (? & _ & [= <-]). done. }
  assert (others_at name (h_irms h) irms2) as Hoth.
  { intros n tb ax Hne Hx. pose proof (T1 n tb ax Hne Hx) as Hx1. pose proof (U1 n tb ax Hne Hx1) as Hx2. subst irms2.
    destruct (tr_aux st1) as [[tb' ir']|] eqn:Eau; [|done]. case_bool_decide as Hc; [|done]. subst tb'.
    destruct Hx2 as (y & Hy & Hr). exists y. split; [|done]. rewrite lookup_insert_ne; [done|]. intros ->.
    destruct Hx1 as (z & Hz & _). rewrite (T3 _ _ eq_refl) in Hz. discriminate. }
  assert (exists xa, at_table irms2 choice name xa /\ any_data xa = any_data a /\ (well t a -> well t xa)) as (xa & Hx & Hdx & Hwx).
  { destruct T4 as [(xa & Hx & Hd)|(ir & xa & Hau & Hr & Hd)].
    - exists xa. split; [|done]. subst irms2. destruct (tr_aux st1) as [[tb' ir']|] eqn:Eau; [|by apply U2]. case_bool_decide as Hc; [|by apply U2]. subst tb'.
      destruct Hx as (z & Hz & _). rewrite (T3 _ _ eq_refl) in Hz. discriminate.
    - exists xa. split; [|done]. subst irms2. rewrite Hau. rewrite bool_decide_true by done. exists ir. by rewrite lookup_insert. }
  split_and!; try done. intros n y Hy. destruct (decide (n = name)) as [->|Hne].
  - rewrite Hla in Hy. injection Hy as <-. exists xa. rewrite Hdx. split; [|split; [apply keeps_obs_refl|intros t' Ht'; by simplify_eq]]. apply lookup_at. exists rc, choice. simpl.
    rewrite Hass, lookup_insert. done.
  - apply lookup_at in Hy as (rc2 & t2 & Hrc2 & Ht2 & Hat2). exists y. split; [|split; [apply keeps_obs_refl|done]]. apply lookup_at. exists rc2, t2. simpl.
    split; [done|]. rewrite Hass, lookup_insert_ne, lookup_delete_ne; [|intros ->; apply Hne; by eapply Hinj..]. split; [done|]. by apply Hoth.
Qed.

(** ** One iteration, and any number of them *)
Lemma h_noisies_lookup (h : hirm V) names : forall wns, h_noisies h names = Ok wns ->
  Forall2 (fun name n => hirm_lookup h name = Some (ANoisy n)) names wns.*2.
Proof.
  induction names as [|name names IH]; intros ns H; simpl in H; [injection H as <-; constructor|].
  apply obind_Ok in H as (ir & Hir & H). apply obind_Ok in H as (a & Ha & H). apply obind_Ok in H as (n & Hn & H). apply obind_Ok in H as (ns' & Hns & [= <-]).
  constructor; [|by apply IH]. destruct a; [discriminate|]. injection Hn as <-. unfold hirm_lookup, get_relation. rewrite Hir. cbn [obind]. by rewrite Ha.
Qed.
Lemma put_noisies_hirm_keeps p l : forall (h h0 h' : hirm V), hirm_keeps p h0 h ->
  (forall name n', (name, n') ∈ l -> exists n, hirm_lookup h0 name = Some (ANoisy n) /\ noisy_same n n') ->
  foldM (fun h q => h_set_rel h q.1 (ANoisy q.2)) h l = Ok h' -> hirm_keeps p h0 h'.
Proof.
  induction l as [|[name n'] l IH]; intros h h0 h' Hk Hl H; cbn [foldM] in H; [by injection H as <-|].
  apply obind_Ok in H as (h1 & H1 & H). apply (IH h1 h0); [|intros; apply Hl; by right|done]. simpl in H1.
  destruct (Hl name n' ltac:(by left)) as (n & Hn & Hs). pose proof Hk as (K1 & K2 & K3 & K4 & K5).
  unfold h_set_rel in H1. apply obind_Ok in H1 as (t & Ht & H1). apply obind_Ok in H1 as (ir & Hi%at_Ok & [= <-]).
  unfold relation_to_table in Ht. apply obind_Ok in Ht as (rc & Hrc%at_Ok & Ht%at_Ok).
  split_and!; try done. intros m x Hx. destruct (K5 m x Hx) as (y & Hy & Hky). destruct (decide (m = name)) as [->|Hne].
  - exists (ANoisy n'). split.
    + apply lookup_at. exists rc, t. split_and!; [done|done|]. eexists. simpl. rewrite lookup_insert. split; [done|]. simpl. by rewrite lookup_insert.
    + rewrite Hn in Hx. injection Hx as <-. destruct Hs as [Hw Hs]. simpl. rewrite Hs. split; [apply keeps_obs_refl|]. intros t' _. by apply as_well_well.
  - exists y. split; [|done]. apply lookup_at in Hy as (rc2 & t2 & A1 & A2 & ir2 & A3 & A4). apply lookup_at. exists rc2, t2. split_and!; [done|done|].
    simpl. destruct (decide (t2 = t)) as [->|].
    + eexists. rewrite lookup_insert. split; [done|]. simpl. rewrite lookup_insert_ne by done. congruence.
    + exists ir2. by rewrite lookup_insert_ne.
Qed.
Lemma hirm_latents_keeps (p : string -> Prop) o (h : hirm V) name r h' r' : p name -> hirm_transition_latents o h name r = Ok (h', r') -> hirm_keeps p h h'.
Proof.
  intros Hp H. unfold hirm_transition_latents in H. apply obind_Ok in H as (b & _ & H). apply obind_Ok in H as (nl & _ & H).
  apply (foldM_inv _ (fun st => hirm_keeps p h st.1)) in H; [done|apply hirm_keeps_refl|].
  intros [h1 r1] bi [h2 r2] _ IH Hs. simpl in *. apply obind_Ok in Hs as (irb & Hirb & Hs). apply obind_Ok in Hs as (base & Hb & Hs).
  apply obind_Ok in Hs as (wns & Hns & Hs). apply obind_Ok in Hs as ([[base' ns'] r3] & Ht & Hs).
  apply obind_Ok in Hs as (h3 & Hput & Hs). apply obind_Ok in Hs as (h4 & Hset & [= <- _]). apply h_noisies_lookup in Hns.
  apply latent_value_keeps in Ht as [Hk Hf]; [|by rewrite !fmap_length].
  assert (hirm_lookup h1 name = Some base) as Hlb by (unfold hirm_lookup, get_relation; rewrite Hirb; cbn [obind]; by rewrite Hb).
  eapply hirm_keeps_trans; [exact IH|].
  pose proof (put_noisies_hirm_keeps p (zip _ ns') h1 h1 h3 (hirm_keeps_refl p h1) (zip_noisies _ _ _ ns' Hns Hf) Hput) as (K1 & K2 & K3 & K4 & K5).
  unfold h_set_rel in Hset. apply obind_Ok in Hset as (t & Htb & Hset). apply obind_Ok in Hset as (ir & Hi%at_Ok & [= <-]).
  unfold relation_to_table in Htb. apply obind_Ok in Htb as (rc & Hrc%at_Ok & Htb%at_Ok).
  split_and!; try done. intros m x Hx. destruct (decide (m = name)) as [->|Hne].
  - exists base'. split.
    + apply lookup_at. exists rc, t. split_and!; [done|done|]. eexists. simpl. rewrite lookup_insert. split; [done|]. simpl. by rewrite lookup_insert.
    + rewrite Hlb in Hx. injection Hx as <-. destruct Hk as (Hw & Hd & _). split; [split; [done|tauto]|]. intros t' _. by apply as_well_well.
  - destruct (K5 m x Hx) as (y & Hy & Hky). exists y. split; [|done]. apply lookup_at in Hy as (rc2 & t2 & A1 & A2 & ir2 & A3 & A4).
    apply lookup_at. exists rc2, t2. split_and!; [done|done|].
    simpl. destruct (decide (t2 = t)) as [->|].
    + eexists. rewrite lookup_insert. split; [done|]. simpl. rewrite lookup_insert_ne by done. congruence.
    + exists ir2. by rewrite lookup_insert_ne.
Qed.
Lemma iteration_keeps lg o (h : hirm V) r h' r' : orders_ok o -> code_inj h -> hirm_iteration lg o h r = Ok (h', r') ->
  hirm_keeps (latent_in (h_schema h)) h h'.
Proof.
  intros Ho Hinj H. unfold hirm_iteration in H. apply obind_Ok in H as ([h1 r1] & H1 & H). apply obind_Ok in H as ([h2 r2] & H2 & H3).
  set (p := latent_in (h_schema h)).
  assert (hirm_keeps p h h1) as K1.
  { apply (foldM_inv _ (fun st => hirm_keeps p h st.1)) in H1; [done|apply hirm_keeps_refl|].
    intros [ha ra] name [hb rb] _ IH Hs. simpl in *. apply obind_Ok in Hs as (t & Ht%at_Ok & Hs).
    destruct (t_observed t) eqn:Et; [by injection Hs as <- _|]. eapply hirm_keeps_trans; [exact IH|]. eapply hirm_latents_keeps; [|exact Hs].
    exists t. split; [|done]. by rewrite <- (proj1 IH). }
  assert (hirm_keeps p h h2) as K2.
  { unfold hirm_transition_all, hirm_transition in H2. apply (foldM_inv _ (fun st => hirm_keeps p h st.1)) in H2; [done|exact K1|].
    intros [ha ra] name [hb rb] _ IH Hs. simpl in *. eapply hirm_keeps_trans; [exact IH|]. eapply move_relation_keeps; [done| |exact Hs].
    by eapply hirm_keeps_inj. }
  apply (foldM_inv _ (fun st => hirm_keeps p h st.1)) in H3; [done|exact K2|].
  intros [ha ra] t [hb rb] _ IH Hs. simpl in *. eapply hirm_keeps_trans; [exact IH|]. by eapply irm_step_keeps.
Qed.
Lemma inference_keeps lg o late n : forall i (h : hirm V) r h' r', (forall i, orders_ok (o i)) -> code_inj h ->
  inference_hirm lg o late i n h r = Ok (h', r') -> hirm_keeps (latent_in (h_schema h)) h h'.
Proof.
  induction n as [|n IH]; intros i h r h' r' Ho Hinj H; simpl in H.
  - injection H as <- _. apply hirm_keeps_refl.
  - destruct (late i); [injection H as <- _; apply hirm_keeps_refl|]. apply obind_Ok in H as ([h1 r1] & H1 & H).
    apply iteration_keeps in H1; [|done|done]. apply IH in H; [|done|by eapply hirm_keeps_inj].
    eapply hirm_keeps_trans; [exact H1|]. by rewrite (proj1 H1) in H.
Qed.
End HirmKeeps.
Lemma inference_irm_keeps {V} lg o late n : forall i (ir : irm V) r ir' r',
  inference_irm lg o late i n ir r = Ok (ir', r') -> irm_keeps (latent_in (i_schema ir)) ir ir'.
Proof.
  induction n as [|n IH]; intros i ir r ir' r' H; simpl in H.
  - injection H as <- _. apply irm_keeps_refl.
  - destruct (late i); [injection H as <- _; apply irm_keeps_refl|]. apply obind_Ok in H as ([h1 r1] & H1 & H).
    apply single_step_keeps in H1. apply IH in H. eapply irm_keeps_trans.
    + eapply irm_keeps_weaken; [|exact H1]. by intros m [_ ?].
    + by rewrite (proj1 H1) in H.
Qed.
