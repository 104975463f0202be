(** Proofs: when the inference loop of a HIRM returns, and that it then is a history of calls. *)
From stdpp Require Import gmap strings.
From Coq Require Import ZArith Reals.
From Verif Require Import M_base M_math M_crp M_domain M_dist M_relation M_noisy M_irm M_hirm M_inference
  S_crp S_crp_state S_relation S_irm S_hirm S_inference P_base P_math P_crp P_crp_score P_domain P_relation P_any P_irm P_irm_schema
  P_irm_history P_hirm P_hirm_move P_hirm_trans P_hirm_history P_hirm_ctor P_inference.

Section Ok.
Context {V : Type}.

Definition any_resamples (a : any_rel V) : Prop :=
  match a with AClean D _ => resamples D | ANoisy n => resamples (em_dist (n_em n)) end.
Lemma any_type_resamples (a : any_rel V) b : t_resamples (any_type a b) <-> any_resamples a.
Proof. by destruct a. Qed.

Lemma rel_hparams_ok {T} (D : Dist T) (HD : resamples D) (ord : gmap (list Z) (d_state D) -> list (list Z)) (rel : relation D) (r : rng) :
  (forall z, z ∈ ord (r_clusters rel) -> is_Some (r_clusters rel !! z)) -> exists rel' r', transition_cluster_hparams D rel ord r = Ok (rel', r').
Proof.
  unfold transition_cluster_hparams. generalize (ord (r_clusters rel)). intros l. revert rel r. induction l as [|z l IH]; intros rel r Hl; simpl; [eauto|].
  destruct (Hl z ltac:(by left)) as [c Hc]. rewrite Hc. cbn [at_ obind]. destruct (HD c r) as (c' & r' & Hr). rewrite Hr. cbn [obind].
  apply IH. intros z' Hz'. simpl. destruct (decide (z' = z)) as [->|]; [rewrite lookup_insert; eauto|]. rewrite lookup_insert_ne by done. apply Hl. by right.
Qed.
Lemma any_hparams_ok o (a : any_rel V) (r : rng) : orders_ok o -> any_resamples a -> exists a' r', any_hparams o a r = Ok (a', r') /\ any_resamples a'.
Proof.
  intros (Ho & _) Ha. destruct a as [D rel|n]; simpl in *.
  - destruct (rel_hparams_ok D Ha (fun m => o_vecs o (dom m)) rel r) as (rel' & r' & H).
    { intros z Hz. rewrite Ho, elem_of_elements in Hz. by apply elem_of_dom. }
    rewrite H. simpl. eauto.
  - destruct (rel_hparams_ok _ Ha (fun m => o_vecs o (dom m)) (n_rel n) r) as (rel' & r' & H).
    { intros z Hz. rewrite Ho, elem_of_elements in Hz. by apply elem_of_dom. }
    rewrite H. simpl. eauto.
Qed.
Lemma irm_hparams_ok o l : forall (ir : irm V) (r : rng), orders_ok o -> (forall name a, i_rels ir !! name = Some a -> any_resamples a) ->
  (forall name, name ∈ l -> is_Some (i_rels ir !! name)) -> exists ir' r', foldM (irm_hparams_one o) (ir, r) l = Ok (ir', r') /\ dom (i_domains ir') = dom (i_domains ir).
Proof.
  induction l as [|name l IH]; intros ir r Ho Hr Hl; simpl; [eauto|].
  destruct (Hl name ltac:(by left)) as [a Ha]. rewrite Ha. cbn [at_ obind]. destruct (any_hparams_ok o a r Ho (Hr _ _ Ha)) as (a' & r' & H & Hres).
  rewrite H. cbn [obind]. destruct (IH (i_set_rel ir name a') r' Ho) as (ir2 & r2 & H2 & Hd2).
  - intros n b. simpl. destruct (decide (n = name)) as [->|]; [rewrite lookup_insert; by intros [= <-]|]. rewrite lookup_insert_ne by done. apply Hr.
  - intros n Hn. simpl. destruct (decide (n = name)) as [->|]; [rewrite lookup_insert; eauto|]. rewrite lookup_insert_ne by done. apply Hl. by right.
  - exists ir2, r2. split; [exact H2|exact Hd2].
Qed.
Lemma irm_alpha_ok ar lg l : forall (ir : irm V) A (r : rng), irm_holds ar ir A -> (forall d, d ∈ l -> is_Some (i_domains ir !! d)) ->
  exists ir' r', foldM (irm_alpha_one lg) (ir, r) l = Ok (ir', r').
Proof.
  induction l as [|d l IH]; intros ir A r Hh Hl; cbn [foldM]; [eauto|].
  destruct (Hl d ltac:(by left)) as [dm Hdm].
  assert (exists ir1 r1, irm_alpha_one lg (ir, r) d = Ok (ir1, r1) /\ forall d', is_Some (i_domains ir !! d') -> is_Some (i_domains ir1 !! d')) as (ir1 & r1 & H1 & Hd1).
  { unfold irm_alpha_one. rewrite Hdm. cbn [at_ obind]. pose proof (ih_world _ _ _ Hh d) as Hw. rewrite Hdm in Hw. destruct (A !! d) as [sa|]; [|done].
    destruct Hw as [_ Hds]. destruct (transition_alpha_spec lg (dom_crp dm) sa r Hds) as (c' & r3 & Hc & _). rewrite Hc. cbn [obind].
    eexists _, _. split; [done|]. intros d' Hd'. simpl. destruct (decide (d' = d)) as [->|]; [rewrite lookup_insert; eauto|]. by rewrite lookup_insert_ne. }
  rewrite H1. cbn [obind].
  destruct (alpha_loop_spec ar lg [d] ir A r ir1 r1 Hh) as [Hh1 _]; [cbn [foldM]; by rewrite H1|].
  apply (IH ir1 A r1 Hh1). intros d' Hd'. apply Hd1, Hl. by right.
Qed.
Lemma irm_step_ok ar lg o (ir : irm V) A (r : rng) : irm_holds ar ir A -> orders_ok o -> (forall name t, i_schema ir !! name = Some t -> t_resamples t) ->
  exists ir' r', irm_single_step lg o ir false r = Ok (ir', r').
Proof.
  intros Hh Ho Hr. unfold irm_single_step. cbn [obind].
  destruct (transition_all_spec ar o ir A r Hh Ho) as (ir1 & r1 & A1 & H1 & Hh1 & Hi1). rewrite H1. cbn [obind].
  destruct Hi1 as ((Hs1 & _) & _).
  destruct (irm_hparams_ok o (o_names o (dom (i_rels ir1))) ir1 r1 Ho) as (ir2 & r2 & H2 & Hd2).
  - intros name a Ha. pose proof (ih_schema _ _ _ Hh1 name) as Hsch. rewrite Ha in Hsch. destruct (i_schema ir1 !! name) as [t|] eqn:Et; [|done].
    rewrite Hs1 in Et. specialize (Hr name t Et). rewrite Hsch in Hr. by apply any_type_resamples in Hr.
  - intros name Hn. destruct Ho as (_ & _ & Hon & _). rewrite Hon, elem_of_elements in Hn. by apply elem_of_dom.
  - rewrite H2. cbn [obind]. destruct (hparams_loop_spec ar o _ ir1 A1 r1 ir2 r2 Hh1 H2) as [Hh2 _].
    apply (irm_alpha_ok ar lg _ ir2 A1 r2 Hh2). intros d Hd. destruct Ho as (_ & _ & Hon & _). rewrite Hon, elem_of_elements in Hd. by apply elem_of_dom.
Qed.

Lemma holds_code_inj (h : hirm V) a : hirm_holds h a -> code_inj h.
Proof. intros Hh n1 n2 rc H1 H2. apply (hh_codes _ _ Hh) in H1, H2. congruence. Qed.

(** Latent relations without observations are left alone. *)
Lemma latents_noop o (h : hirm V) name (r : rng) a m : hirm_holds h a -> orders_ok o -> hirm_data h !! name = Some m -> m = ∅ -> is_Some (h_b2n h !! name) ->
  hirm_transition_latents o h name r = Ok (h, r).
Proof.
  intros Hh (Ho & _) Hm -> [nl Hnl]. unfold hirm_transition_latents. rewrite (hirm_data_lookup h a name Hh) in Hm. unfold hirm_lookup in Hm.
  destruct (get_relation h name) as [x| | | | |]; try discriminate. injection Hm as Hx. cbn [obind]. rewrite Hnl. cbn [at_ obind]. rewrite Hx.
  assert (o_vecs o (dom (∅ : gmap items_t V)) = []) as ->; [|done].
  apply Permutation_nil. rewrite (Ho (dom ∅)), dom_empty_L, elements_empty. done.
Qed.
Lemma latents_loop_noop o (h : hirm V) (r : rng) a l : hirm_holds h a -> orders_ok o -> no_latent_observations h -> (forall name, name ∈ l -> is_Some (h_b2n h !! name)) ->
  (forall name, name ∈ l -> is_Some (h_schema h !! name)) -> foldM (hirm_latents_one o) (h, r) l = Ok (h, r).
Proof.
  intros Hh Ho Hno. induction l as [|name l IH]; intros Hl Hs; cbn [foldM]; [done|].
  assert (hirm_latents_one o (h, r) name = Ok (h, r)) as ->.
  { unfold hirm_latents_one. destruct (Hs name ltac:(by left)) as [t Ht]. rewrite Ht. cbn [at_ obind]. destruct (t_observed t) eqn:Et; [done|].
    destruct (member h a name t Hh Ht) as (? & ? & ? & ? & x & _ & _ & _ & _ & _ & _ & _ & _ & Hx).
    assert (hirm_data h !! name = Some (any_data x)) as Hd by by rewrite (hirm_data_lookup h a name Hh), Hx.
    eapply latents_noop; [done|done|exact Hd| |apply Hl; by left]. eapply Hno; [|exact Hd]. by exists t. }
  cbn [obind]. apply IH; intros; [apply Hl|apply Hs]; by right.
Qed.

Lemma gentle_app (h1 h2 h3 : hirm V) cs cs' : hirm_gentle_run h1 cs h2 -> hirm_gentle_run h2 cs' h3 -> hirm_gentle_run h1 (cs ++ cs') h3.
Proof. induction 1 as [h|h c hm cs h' Hok Hg Hdo Hrun IH]; intros H; [done|]. simpl. econstructor; [done|done|done|]. by apply IH. Qed.
(** Only relations with dependents are on the list of bases. *)
Definition bases_listed (h : hirm V) : Prop := forall b ns, h_b2n h !! b = Some ns -> ns <> [].
Lemma push_bases b2n (t : t_rel V) name : (forall b ns, b2n !! b = Some ns -> ns <> []) -> forall b ns, h_push_noisy b2n t name !! b = Some ns -> ns <> [].
Proof.
  intros H b ns. destruct t as [|? ? ? ? base]; simpl; [apply H|]. destruct (decide (b = base)) as [->|].
  - rewrite lookup_insert. intros [= <-]. by destruct (default [] (b2n !! base)).
  - rewrite lookup_insert_ne by done. apply H.
Qed.
Lemma add_bases (h : hirm V) name ty r h' r' : hirm_add_relation h name ty r = Ok (h', r') -> bases_listed h -> bases_listed h'.
Proof.
  unfold hirm_add_relation. intros H Hb. apply obind_Ok in H as (? & _ & H). apply obind_Ok in H as ([tb r1] & _ & H). apply obind_Ok in H as (c & _ & H).
  apply obind_Ok in H as (? & _ & H). apply obind_Ok in H as (ir & _ & H). apply obind_Ok in H as (ir1 & _ & H). apply obind_Ok in H as (? & _ & H). apply obind_Ok in H as (? & _ & H).
  injection H as <- _. unfold bases_listed. cbn [h_b2n]. by apply push_bases.
Qed.
Lemma pass_bases schema l (h : hirm V) r b1 b2 h' r' b1' b2' : foldM (ctor_visit schema) (h, r, b1, b2) l = Ok (h', r', b1', b2') -> bases_listed h -> bases_listed h'.
Proof.
  intros H Hb. change (bases_listed ((h', r', b1', b2').1.1.1)). revert H. generalize (h', r', b1', b2'). intros st' H.
  eapply (foldM_inv _ (fun st : hirm V * rng * bool * bool => bases_listed st.1.1.1) _ (h, r, b1, b2) st'); [exact Hb| |exact H]. clear. intros [[[h r] b1] b2] name st' _ Hb H. cbn [fst] in Hb. unfold ctor_visit in H.
  destruct (bool_decide _); [by injection H as <-|]. apply obind_Ok in H as (t & _ & H).
  destruct (match t with TClean _ _ _ _ => true | TNoisy _ _ _ _ base => _ end); [|by injection H as <-].
  apply obind_Ok in H as ([h1 r1] & H1 & [= <-]). cbn [fst]. by eapply add_bases.
Qed.
Lemma ctor_bases schema fuel : forall (h : hirm V) r h' r', ctor_loop fuel schema h r = Ok (h', r') -> bases_listed h -> bases_listed h'.
Proof.
  induction fuel as [|f IH]; intros h r h' r' H Hb; [done|]. cbn [ctor_loop] in H. apply obind_Ok in H as ([[[h1 r1] b1] b2] & H1 & H).
  pose proof (pass_bases _ _ _ _ _ _ _ _ _ _ H1 Hb) as Hb1. destruct b2; cbn [negb] in H; [|by injection H as <- _]. destruct b1; cbn [negb] in H; [|done]. by eapply IH.
Qed.
Lemma new_bases schema r (h : hirm V) r' : hirm_new schema r = Ok (h, r') -> bases_listed h.
Proof. intros H. eapply ctor_bases; [exact H|]. intros b ns Hb. cbn [hirm_empty h_b2n] in Hb. by rewrite lookup_empty in Hb. Qed.
Lemma do_bases (h : hirm V) a c h' : hirm_holds h a -> hirm_call_ok h c -> hirm_do h c = Ok h' -> bases_listed h -> bases_listed h'.
Proof.
  intros Hh Hok H Hl.
  assert (forall h', same_directory h h' -> bases_listed h') as Hsame.
  { intros h2 (_ & _ & _ & Hb) base n. rewrite Hb. apply Hl. }
  destruct c as [name ty r|o name|name items v r|o name items|o name table r|o names r|o r|lg o tb r]; simpl in *.
  - apply obind_Ok in H as ([h1 r1] & H & [= <-]). by eapply add_bases.
  - destruct Hok as [Ho Hno]. destruct (proj1 (hirm_remove_spec h a o name Hh Ho Hno) _ H) as (rc & Hrc & Hh' & Hs & _ & Hb & _).
    intros base n. rewrite Hb. apply Hl.
  - apply obind_Ok in H as ([h1 r1] & H & [= <-]).
    apply Hsame. by destruct (proj1 (hirm_incorporate_spec h a name items v r Hh) _ _ H) as (Hh' & Hs & _).
  - apply Hsame. by destruct (proj1 (hirm_unincorporate_spec h a o name items Hh Hok) _ H) as (Hh' & Hs & _).
  - apply obind_Ok in H as ([h1 r1] & H & [= <-]).
    apply Hsame. by destruct (moved_shuffled _ _ _ _ _ (proj1 (set_cluster_spec h a o name table r Hh Hok) _ _ H)) as (Hs & _).
  - apply obind_Ok in H as ([h1 r1] & H & [= <-]).
    apply Hsame. by destruct (proj1 (hirm_transition_spec o names Hok h a r Hh) _ _ H) as (Hs & _).
  - apply obind_Ok in H as ([h1 r1] & H & [= <-]).
    apply Hsame. by destruct (proj1 (hirm_transition_spec o _ Hok h a r Hh) _ _ H) as (Hs & _).
  - apply obind_Ok in H as ([h1 r1] & H & [= <-]).
    apply Hsame. by destruct (hirm_irm_step_spec lg o h a tb r h1 r1 Hh Hok H) as (Hh' & Hs & _).
Qed.
Lemma run_bases (h : hirm V) cs h' : hirm_run h cs h' -> forall a, hirm_holds h a -> bases_listed h -> bases_listed h'.
Proof.
  intros H. induction H as [h|h c h1 cs h' Hok Hdo Hrun IH]; intros a Hh Hb; [done|].
  destruct (hirm_do_spec h a c h1 Hh Hok Hdo) as ([a1 Hh1] & _). apply (IH a1 Hh1). exact (do_bases h a c h1 Hh Hok Hdo Hb).
Qed.
Lemma bases_declared (h : hirm V) a b : hirm_holds h a -> hirm_listed_exactly h -> bases_listed h -> is_Some (h_b2n h !! b) -> is_Some (h_schema h !! b).
Proof.
  intros Hh Hl Hb [ns Hns]. pose proof (Hb _ _ Hns) as Hne. destruct ns as [|n ns]; [done|].
  destruct (proj1 (Hl b n)) as (t & Ht & Htb); [exists (n :: ns); split; [done|by left]|].
  pose proof (hh_grounded _ _ Hh n ltac:(eauto)) as Hg. destruct Hg as [n t' Ht' Htb'|n t' b' Ht' Htb' Hg']; [congruence|].
  assert (b' = b) as -> by congruence. destruct Hg'; eauto.
Qed.

(** A HIRM as inference meets it. *)
Record ready (h : hirm V) : Prop := {
  rd_holds : exists a, hirm_holds h a;
  rd_closed : hirm_closed h;
  rd_listed : hirm_listed_exactly h;
  rd_bases : bases_listed h }.
Lemma reached_ready schema r (h0 : hirm V) r0 cs h : schema_lawful schema -> hirm_new schema r = Ok (h0, r0) -> hirm_gentle_run h0 cs h -> ready h.
Proof.
  intros HL H0 Hrun. destruct (proj1 (hirm_new_spec schema r HL) _ _ H0) as [Hb0 _]. pose proof Hb0 as ([a0 Hh0] & _ & Hl0 & _).
  destruct (gentle_run_spec h0 cs h Hrun a0 Hh0 (built_closed schema h0 Hb0) Hl0) as (Hc & Hl & Hr).
  destruct (hirm_run_spec h0 cs h Hr a0 Hh0) as (Ha & _). split; try done. eapply run_bases; [done..|]. by eapply new_bases.
Qed.
Lemma ready_run (h : hirm V) cs h' : ready h -> hirm_gentle_run h cs h' -> ready h'.
Proof.
  intros [[a Hh] Hc Hl Hb] Hg. destruct (gentle_run_spec h cs h' Hg a Hh Hc Hl) as (Hc' & Hl' & Hr).
  destruct (hirm_run_spec h cs h' Hr a Hh) as (Ha & _). split; try done. by eapply run_bases.
Qed.
Definition idle (h : hirm V) cs h' : Prop := hirm_gentle_run h cs h' /\ h_schema h' = h_schema h /\ hirm_data h' = hirm_data h.
Lemma idle_trans (h1 h2 h3 : hirm V) cs cs' : idle h1 cs h2 -> idle h2 cs' h3 -> idle h1 (cs ++ cs') h3.
Proof. intros (H1 & H2 & H3) (H4 & H5 & H6). split; [by eapply gentle_app|]. split; congruence. Qed.
Lemma idle_one (h : hirm V) c h' : ready h -> hirm_call_ok h c -> hirm_call_gentle h c -> hirm_do h c = Ok h' ->
  (forall s, hirm_schema_after s c = s) -> (forall d, hirm_data_after d c = d) -> idle h [c] h'.
Proof.
  intros [[a Hh] _ _ _] Hok Hg Hdo Hs Hd. destruct (hirm_do_spec h a c h' Hh Hok Hdo) as (_ & Hs' & Hd'). split; [|by rewrite Hs', Hd', Hs, Hd].
  econstructor; [done|done|exact Hdo|constructor].
Qed.
Lemma irm_steps_idle lg o l : orders_ok o -> forall (h : hirm V) (r : rng), ready h -> schema_resamples (h_schema h) -> (forall t, t ∈ l -> is_Some (h_irms h !! t)) ->
  exists h' r' cs, foldM (hirm_irm_step lg o) (h, r) l = Ok (h', r') /\ idle h cs h'.
Proof.
  intros Ho. induction l as [|t l IH]; intros h r Hrd Hr Hl; cbn [foldM].
  { exists h, r, []. split; [done|]. split; [constructor|done]. }
  destruct (rd_holds _ Hrd) as [a Hh].
  destruct (Hl t ltac:(by left)) as [ir Hi]. pose proof (hh_irms _ _ Hh t) as Hirm. rewrite Hi in Hirm. destruct Hirm as (_ & [A HA] & Hsch).
  destruct (irm_step_ok _ lg o ir A r HA Ho) as (ir' & r' & Hs).
  { intros name ty Hty. apply Hsch in Hty as [Hty _]. by eapply Hr. }
  assert (hirm_irm_step lg o (h, r) t = Ok (h_set_irms h (<[t := ir']> (h_irms h)), r')) as Hst by (unfold hirm_irm_step; rewrite Hi; cbn [at_ obind]; by rewrite Hs).
  rewrite Hst. cbn [obind].
  assert (hirm_do h (HIrmStep lg o t r) = Ok (h_set_irms h (<[t := ir']> (h_irms h)))) as Hdo by (cbn [hirm_do]; by rewrite Hst).
  pose proof (idle_one h _ _ Hrd (Ho : hirm_call_ok h (HIrmStep lg o t r)) I Hdo (fun _ => eq_refl) (fun _ => eq_refl)) as Hid.
  destruct (IH (h_set_irms h (<[t := ir']> (h_irms h))) r') as (h2 & r2 & cs & H2 & Hid2).
  - eapply ready_run; [done|apply Hid].
  - done.
  - intros t' Ht'. simpl. destruct (decide (t' = t)) as [->|]; [rewrite lookup_insert; eauto|]. rewrite lookup_insert_ne by done. apply Hl. by right.
  - exists h2, r2, ([HIrmStep lg o t r] ++ cs). split; [done|]. by eapply idle_trans.
Qed.
Lemma iteration_idle lg o (h : hirm V) (r : rng) : ready h -> orders_ok o -> no_latent_observations h -> schema_resamples (h_schema h) ->
  exists h' r' cs, hirm_iteration lg o h r = Ok (h', r') /\ idle h cs h'.
Proof.
  intros Hrd Ho Hno Hr. destruct (rd_holds _ Hrd) as [a Hh]. unfold hirm_iteration.
  assert (forall name, name ∈ o_names o (dom (h_b2n h)) -> is_Some (h_b2n h !! name)) as Hin.
  { intros name Hn. destruct (Ho) as (_ & _ & Hon & _). rewrite Hon, elem_of_elements in Hn. by apply elem_of_dom. }
  rewrite (latents_loop_noop o h r a _ Hh Ho Hno Hin).
  2:{ intros name Hn. eapply bases_declared; [done|apply Hrd|apply Hrd|]. by apply Hin. }
  cbn [obind]. assert (exists h1 r1, hirm_transition_all o h r = Ok (h1, r1)) as (h1 & r1 & H1).
  { unfold hirm_transition_all. destruct (proj2 (hirm_transition_spec o (o_names o (dom (h_code h))) Ho h a r Hh)) as [[h1 r1] H1].
    - intros n Hn. destruct (Ho) as (_ & _ & Hon & _). rewrite Hon, elem_of_elements, elem_of_dom in Hn. by apply (hh_schema _ _ Hh).
    - apply Hrd.
    - apply listed_exact_listed, Hrd.
    - eauto. }
  rewrite H1. cbn [obind].
  assert (hirm_do h (HTransitionAll o r) = Ok h1) as Hdo by (cbn [hirm_do]; by rewrite H1).
  pose proof (idle_one h _ _ Hrd (Ho : hirm_call_ok h (HTransitionAll o r)) I Hdo (fun _ => eq_refl) (fun _ => eq_refl)) as Hid.
  destruct (irm_steps_idle lg o (o_ents o (dom (h_irms h1))) Ho h1 r1) as (h2 & r2 & cs & H2 & Hid2).
  - eapply ready_run; [done|apply Hid].
  - destruct Hid as (_ & -> & _). done.
  - intros t Ht. destruct (Ho) as (_ & _ & _ & Hoe). rewrite Hoe, elem_of_elements in Ht. by apply elem_of_dom.
  - exists h2, r2, ([HTransitionAll o r] ++ cs). split; [done|]. by eapply idle_trans.
Qed.
Lemma inference_idle lg o late n : (forall i, orders_ok (o i)) -> forall i (h : hirm V) (r : rng), ready h -> no_latent_observations h -> schema_resamples (h_schema h) ->
  exists h' r' cs, inference_hirm lg o late i n h r = Ok (h', r') /\ idle h cs h'.
Proof.
  intros Ho. induction n as [|n IH]; intros i h r Hrd Hno Hr; cbn [inference_hirm].
  { exists h, r, []. split; [done|]. split; [constructor|done]. }
  destruct (late i). { exists h, r, []. split; [done|]. split; [constructor|done]. }
  destruct (iteration_idle lg (o i) h r Hrd (Ho i) Hno Hr) as (h1 & r1 & cs1 & H1 & Hid1). rewrite H1. cbn [obind].
  destruct Hid1 as (Hg1 & Hs1 & Hd1).
  destruct (IH (S i) h1 r1) as (h2 & r2 & cs2 & H2 & Hid2).
  - by eapply ready_run.
  - intros name m Hla Hm. apply (Hno name m); [by rewrite <- Hs1|by rewrite <- Hd1].
  - by rewrite Hs1.
  - exists h2, r2, (cs1 ++ cs2). split; [done|]. by eapply idle_trans.
Qed.
End Ok.
