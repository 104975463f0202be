(** Resampling a reference keeps the table: proofs. *)
From Coq Require Import String Ascii.
From stdpp Require Import gmap strings list sorting relations.
From Coq Require Import ZArith Reals Lia.
From Verif Require Import M_base M_math M_crp M_domain M_dist M_relation M_noisy M_irm M_logp M_hirm M_inference M_schema M_pclean_io M_gendb M_gendb_rels
  M_gendb_state M_pclean M_gendb_trans
  S_crp S_crp_state S_irm S_hirm S_gendb S_gendb_rels S_gendb_state S_gendb_life P_base P_crp P_irm_schema P_gendb P_gendb_links P_gendb_rels T_gendb_rels P_gendb_ents
  P_gendb_fill P_gendb_data P_gendb_blank P_gendb_vec P_gendb_reach T_gendb_state T_gendb_rows P_gendb_trans P_gendb_move.
Local Open Scope nat_scope.

Section Fields.
Context {V : Type} (rid : hash_fn) (build : hdecl -> t_rel V) (record_is_clean : bool) (s : pschema) (fuel : nat)
  (dm : gmap string (list string)) (refs : gmap string links) (m : made).
Hypotheses (WF : well_formed s) (Honce : record_is_clean = true -> record_queried_once s) (Hsh : forall c, shallow (ps_classes s) c)
  (Hfaith : faithful build)
  (Hdm : compute_domains fuel (ps_classes s) = Ok dm) (Hrefs : compute_refs fuel (ps_classes s) dm = Ok refs)
  (Hm : make_hirm_schema false record_is_clean s dm refs = Ok m).
Notation cs := (ps_classes s).
Notation fields := (pq_fields (ps_query s)).
Notation rc := (pq_record (ps_query s)).
Notation D := (doms dm).
Notation store := (gmap string (gmap items_t V)).
Notation made_cases := (made_cases false record_is_clean s fuel dm refs m WF Honce Hdm Hrefs Hm).
Definition Qf (q : string) : Prop := is_Some (fields !! q).
Global Instance Qf_dec q : Decision (Qf q). Proof. unfold Qf. apply _. Defined.
Definition vec (e : ents) (n : string) (l : items_t) : Prop := Qf n -> direct record_is_clean s n -> relation_vector s e n l.

Lemma Qf_colon q : Qf q -> no_colon q. Proof. apply (wf_fields s WF). Qed.
Lemma base_not_field n o ds es b : md_rels m !! n = Some (o, NoisyOf ds es b) -> ~ Qf b.
Proof.
  intros Hd Hb%Qf_colon. apply made_cases in Hd.
  inversion Hd as [| |? ? Hc Hf|? ? ? ? ? Hof|f f1 v0 f2 k1 k k2 z v' j ps es' o' _ Hq Hl Ha Hnn]; subst.
  - by eapply attr_not_field.
  - done.
  - destruct k2; [by eapply attr_not_field|by eapply lower_not_field].
Qed.
(** What a query field is declared as. *)
Lemma field_made q d fs ks z v : md_rels m !! q = Some d -> queries s q fs ks z v -> direct record_is_clean s q ->
  decl_domains d.2 = D z ++ reverse ks /\ default ∅ (md_refs m !! q) = default ∅ (refs !! z) ∪ path_links (length (D z)) (reverse fs).
Proof.
  intros Hd Hq Hdir. assert (no_colon q) as Hcol by (apply Qf_colon; destruct Hq as [Hq _]; unfold Qf; eauto). apply made_cases in Hd.
  destruct Hd as [c v' j ps sp Ha Hn|v' sp Hc Hf|v' es Hc Hf|fs' ks' z' v' es Hof|f f1 v0 f2 k1 k k2 z' v' j ps es o _ Hq' Hl Ha Hn]; [..|].
  - exfalso. by eapply attr_not_field.
  - exfalso. apply Hdir. eauto.
  - destruct Hq as [Hq Hp]. rewrite Hf in Hq. injection Hq as Hq. destruct fs as [|? [|? ?]]; [|done..]. inversion Hp; subst.
    cbn [decl_domains snd reverse]. split; [by rewrite app_nil_r|]. cbn. by rewrite (right_id_L ∅ (∪)).
  - done.
  - destruct k1 as [|k0 k1]; [|exfalso; symmetry in Hn; by eapply lower_not_field in Hn]. subst f. destruct f1; [|done]. cbn [app] in *.
    destruct (queries_det s _ _ _ _ _ _ _ _ _ Hq Hq') as (<- & <- & <- & <-). rewrite !reverse_cons. done.
Qed.
Lemma field_renamed q d : md_rels m !! q = Some d -> Qf q -> ~ direct record_is_clean s q -> default ∅ (md_refs m !! q) = ∅.
Proof.
  intros Hd HQ Hdir. pose proof (Qf_colon q HQ) as Hcol. apply made_cases in Hd.
  destruct Hd as [c v' j ps sp Ha Hn|v' sp Hc Hf|v' es Hc Hf|fs' ks' z' v' es Hof|f f1 v0 f2 k1 k k2 z' v' j ps es o _ Hq' Hl Ha Hn]; [..|].
  - exfalso. by eapply attr_not_field.
  - done.
  - exfalso. apply Hdir. intros [? _]. congruence.
  - done.
  - destruct k1 as [|k0 k1]; [|exfalso; symmetry in Hn; by eapply lower_not_field in Hn]. subst f. exfalso. apply Hdir. intros [_ [u Hu]].
    destruct Hq' as [Hq' _]. rewrite Hu in Hq'. injection Hq' as Hq'. apply (f_equal length) in Hq'. rewrite !app_length in Hq'. simpl in Hq'. lia.
Qed.
Lemma field_last q d : md_rels m !! q = Some d -> Qf q -> last (decl_domains d.2) = Some rc.
Proof.
  intros Hd HQ. pose proof (Qf_colon q HQ) as Hcol. apply made_cases in Hd.
  destruct (computed_facts s fuel dm refs (wf_closed s WF) Hdm Hrefs) as (Hac & Hsm & Hend & HLR & HLE).
  destruct (Hend rc (wf_record s WF)) as [ds Hds].
  destruct Hd as [c v' j ps sp Ha Hn|v' sp Hc Hf|v' es Hc Hf|fs' ks' z' v' es Hof|f f1 v0 f2 k1 k k2 z' v' j ps es o _ Hq' Hl Ha Hn]; cbn [decl_domains snd].
  - exfalso. by eapply attr_not_field.
  - by rewrite Hds, last_snoc.
  - by rewrite Hds, last_snoc.
  - done.
  - destruct k1 as [|k0 k1]; [|exfalso; symmetry in Hn; by eapply lower_not_field in Hn]. rewrite app_assoc, last_snoc. f_equal.
    destruct f1; [|done]. destruct Hq' as [_ Hp]. cbn [app] in Hp. by inversion Hp.
Qed.
Lemma field_observed q d : md_rels m !! q = Some d -> Qf q -> d.1 = true.
Proof.
  intros Hd HQ. pose proof (Qf_colon q HQ) as Hcol. apply (made_rels false record_is_clean s fuel dm refs m WF Honce Hdm Hrefs Hm) in Hd.
  remember q as n eqn:En. destruct Hd; [|done|done|done|].
  - exfalso. by eapply attr_not_field.
  - destruct k1; [done|]. exfalso. by eapply lower_not_field.
Qed.
Lemma field_path q fs ks z v e l : queries s q fs ks z v -> relation_vector s e q l -> exists i, path_vector cs e rc fs i l /\ last l = Some i.
Proof.
  intros Hq Hv. pose proof Hq as [Hq1 Hp]. destruct fs as [|f fs].
  - destruct (vector_record s WF _ _ _ _ Hq1 Hv) as [i Hi]. exists i. split; [by constructor|by eapply class_vector_last].
  - inversion Hp as [|? ? k ? ks' ? Hr Hp']; subst.
    destruct (vector_chain false record_is_clean s fuel dm refs m WF Honce Hsh Hdm Hrefs Hm e q [] f fs [] rc ks' z v l Hq eq_refl Hv) as [i Hi].
    exists i. split; [done|by eapply path_vector_last].
Qed.
Lemma field_queries q : Qf q -> exists fs ks z v, queries s q fs ks z v /\ is_Some (cs !! z) /\ fields !! q = Some (fs ++ [v]).
Proof.
  intros [path Hq]. destruct (wf_paths s WF q _ Hq) as (fs & ks & z & v & j & ps & Hqs & Ha). exists fs, ks, z, v. split_and!; [done| |apply Hqs].
  destruct Ha as (? & ? & _). eauto.
Qed.

(** ** Vectors and the positions of the reference *)
Variables (c f k : string) (i : Z) (g : gendb V) (inds : gmap string (list nat)).
Hypotheses (Hr : refers cs c f k) (Hgs : g_schema g = s) (Hgl : g_links g = md_refs m) (Hgh : h_schema (g_hirm g) ⊆ build <$> md_rels m)
  (Hinds : domain_inds g c f = Ok inds).
Notation T q := (touched i (positions inds q)).
Lemma declared_here n t : h_schema (g_hirm g) !! n = Some t -> exists d, md_rels m !! n = Some d /\ t = build d.
Proof. intros Ht. eapply lookup_weaken in Ht; [|exact Hgh]. rewrite lookup_fmap in Ht. apply fmap_Some in Ht as (d & Hd & ->). eauto. Qed.
Lemma bases_here : bases_ok Qf (h_schema (g_hirm g)).
Proof.
  intros n t b Ht Hb. destruct (declared_here n t Ht) as ([o d] & Hd & ->). rewrite (proj2 (Hfaith (o, d))) in Hb. cbn [snd] in Hb.
  destruct d as [|ds es b']; [done|]. injection Hb as ->. by eapply base_not_field.
Qed.
Lemma inds_here : inds_ok Qf c inds (h_schema (g_hirm g)).
Proof.
  intros q js Hq. destruct (C54_indices g c f inds Hinds q) as [H1 H2]. destruct (H1 js Hq) as [Hne _].
  assert (forall ind, ind ∈ js -> exists t ls m, is_Some (pq_fields (ps_query (g_schema g)) !! q) /\ h_schema (g_hirm g) !! q = Some t /\ t_domains t !! ind = Some c /\
      g_links g !! q = Some ls /\ ls !! ind = Some m /\ is_Some ((m : gmap string nat) !! f)) as H3 by (intros ind Hi; apply H2; eauto).
  split.
  - destruct js as [|j js]; [done|]. destruct (H3 j) as (t & ls & m0 & Hqq & _); [by left|]. unfold Qf. by rewrite <- Hgs.
  - intros t ind Ht Hi. destruct (H3 ind Hi) as (t' & ls & m0 & _ & Ht' & Hd & _). congruence.
Qed.
Lemma touched_not_direct q l t : Qf q -> h_schema (g_hirm g) !! q = Some t -> T q l -> direct record_is_clean s q.
Proof.
  intros HQ Ht HT. destruct (declared_here q t Ht) as (d & Hd & ->). unfold direct. intros [Hc Hv].
  assert (default ∅ (md_refs m !! q) = ∅) as E. { eapply field_renamed; [done|done|]. intros H. by apply H. }
  unfold touched, positions in HT. apply Exists_exists in HT as (ind & Hin & _). destruct (inds !! q) as [js|] eqn:Ej; [|by apply elem_of_nil in Hin].
  cbn in Hin. destruct (C54_indices g c f inds Hinds q) as [_ H2]. destruct (proj1 (H2 ind)) as (t & ls & m0 & _ & _ & _ & Hls & Hm0 & _); [eauto|].
  rewrite Hgl in Hls. rewrite Hls in E. cbn in E. subst ls. by rewrite lookup_empty in Hm0.
Qed.
Lemma field_stable q t e e' l : Qf q -> direct record_is_clean s q -> h_schema (g_hirm g) !! q = Some t -> except c f i e e' -> ~ T q l ->
  relation_vector s e q l -> relation_vector s e' q l.
Proof.
  intros HQ Hdir Ht HE HT Hv. destruct (field_queries q HQ) as (fs & ks & z & v & Hqs & Hz & Hq).
  destruct (field_path q fs ks z v e l Hqs Hv) as (i0 & Hp & Hlast). destruct (declared_here q t Ht) as (d & Hd & ->).
  destruct (field_made q d fs ks z v Hd Hqs Hdir) as [Ed El].
  destruct (computed_facts s fuel dm refs (wf_closed s WF) Hdm Hrefs) as (Hac & Hsm & Hend & HLR & HLE).
  pose proof (path_goes_lengths _ _ _ _ _ (proj2 Hqs)) as Hlk.
  assert (forall ind lm, (D z ++ reverse ks) !! ind = Some c -> (default ∅ (refs !! z) ∪ path_links (length (D z)) (reverse fs)) !! ind = Some lm ->
    is_Some ((lm : gmap string nat) !! f) -> l !! ind <> Some i) as Hno.
  { intros ind lm Hind Hlm Hf Hli. apply HT. destruct (C54_indices g c f inds Hinds q) as [_ H2].
    destruct (proj2 (H2 ind)) as (js & Hjs & Hin).
    - exists (build d), (default ∅ (md_refs m !! q)), lm. rewrite Hgs, Hgl, (proj1 (Hfaith d)), Ed, El. split_and!; [done|done|done| |done|done].
      destruct (md_refs m !! q) eqn:E; cbn in El |- *; [by rewrite El|]. rewrite <- El, lookup_empty in Hlm. done.
    - unfold touched, positions. rewrite Hjs. cbn. apply Exists_exists. eauto. }
  eapply (path_field false record_is_clean s dm refs m WF Hm); [done|exact Hq|].
  eapply (path_vector_stable s c f i e e' HE rc fs ks z (proj2 Hqs) i0 l (D z)); [exact Hp|by eapply dom_of_list| |].
  - intros p Hpc. destruct (lr_present _ _ _ (HLR z Hz) p c f k Hpc Hr) as (j & Hj & _). unfold link in Hj. apply bind_Some in Hj as (lm & Hlm & Hf).
    apply (Hno p lm); [|apply lookup_union_Some_raw; by left|eauto]. by apply lookup_app_l_Some.
  - intros p Hk Hf. apply (Hno (length (D z) + p) {[f := length (D z) + p - 1]}).
    + rewrite lookup_app_r by lia. by replace (length (D z) + p - length (D z)) with p by lia.
    + apply lookup_union_Some_raw. right. split.
      * apply eq_None_not_Some. intros Hi'. destruct (refs !! z) as [r|] eqn:Er; [|cbn in Hi'; rewrite lookup_empty in Hi'; by destruct Hi'].
        apply (Hsm z r _ Er) in Hi'. lia.
      * apply path_links_lookup. by exists p, f.
    + rewrite lookup_singleton. eauto.
Qed.
Lemma items_field q t e e0 x l' : Qf q -> direct record_is_clean s q -> h_schema (g_hirm g) !! q = Some t -> en_refs e = e0 ->
  items_for e0 (t_domains t) (links_of g q) x = Ok l' -> relation_vector s e q l' /\ last l' = Some x.
Proof.
  intros HQ Hdir Ht <- H. destruct (declared_here q t Ht) as (d & Hd & ->). unfold links_of in H. rewrite Hgl, (proj1 (Hfaith d)) in H.
  destruct (field_queries q HQ) as (fs & ks & z & v & Hqs & Hz & Hq). destruct (field_made q d fs ks z v Hd Hqs Hdir) as [Ed El].
  pose proof (chain_fills s fuel dm refs WF Hsh Hdm Hrefs _ _ _ _ Hz (proj2 Hqs)) as HF. rewrite <- Ed, <- El in HF.
  apply (items_for_unique rid) in H.
  destruct (unique_items_fill rid cs _ _ (fill_sound s _ _ HF) (fill_unique s _ _ HF) (lf_covered _ _ _ HF) _ _ _ _ H) as [Hfl Hl].
  split; [|done]. by eapply (filled_vector false record_is_clean s fuel dm refs m).
Qed.
End Fields.

(** ** The stored observations with their new items *)
Section Update.
Context {V : Type}.
Notation store := (gmap string (gmap items_t V)).
Lemma update_items_ok (o : orders) (g : gendb V) (st : store) c f i x upd : orders_ok o -> update_reference_items o g st c f i x = Ok upd ->
  exists rf, set_reference (en_refs (g_ents g)) c f i x = Ok rf /\
  forall n t, h_schema (g_hirm g) !! n = Some t ->
    (forall l v, sd st n !! l = Some v -> exists j l', last l = Some j /\ items_for rf (t_domains t) (links_of g n) j = Ok l' /\ is_Some (sd upd n !! l')) /\
    (forall l' v, sd upd n !! l' = Some v -> exists l j, sd st n !! l = Some v /\ last l = Some j /\ items_for rf (t_domains t) (links_of g n) j = Ok l').
Proof.
  intros Ho H. unfold update_reference_items in H. apply obind_Ok in H as (w & _ & H). apply obind_Ok in H as (rf & Hrf & H). exists rf. split; [done|].
  assert (forall n data ls new new', foldM (update_item o g rf n data) new ls = Ok new' ->
    (forall n', n' <> n -> sd new' n' = sd new n') /\ (forall l', is_Some (sd new n !! l') -> is_Some (sd new' n !! l')) /\
    forall t, h_schema (g_hirm g) !! n = Some t ->
      (forall l, l ∈ ls -> exists j l', last l = Some j /\ items_for rf (t_domains t) (links_of g n) j = Ok l' /\ is_Some (sd new' n !! l')) /\
      (forall l' v, sd new' n !! l' = Some v -> sd new n !! l' = Some v \/
         exists l j, data !! l = Some v /\ last l = Some j /\ items_for rf (t_domains t) (links_of g n) j = Ok l')) as HI.
  { clear H. intros n data. induction ls as [|l ls IH]; intros new new' H; cbn [foldM] in H.
    - injection H as <-. split_and!; [done|done|]. intros t Ht. split; [|by left]. intros l Hl. by apply elem_of_nil in Hl.
    - apply obind_Ok in H as (new1 & H1 & H). apply IH in H as (I1 & I2 & I3). unfold update_item in H1.
      apply obind_Ok in H1 as (v & Hv%at_Ok & H1). apply obind_Ok in H1 as (t & Ht%at_Ok & H1). apply obind_Ok in H1 as (j & Hj%idx_Ok & H1).
      apply obind_Ok in H1 as (l' & Hl' & H1). injection H1 as <-.
      assert (forall n' l0, sd (store_put new n l' v) n' !! l0 = if decide (n' = n /\ l0 = l') then Some v else sd new n' !! l0) as HP.
      { intros n' l0. unfold sd, store_put. destruct (decide (n' = n)) as [->|Hne].
        - rewrite lookup_insert. cbn. destruct (decide (n = n /\ l0 = l')) as [[_ ->]|Hne]; [by rewrite lookup_insert|]. rewrite lookup_insert_ne; [done|]. intros ->. by apply Hne.
        - rewrite lookup_insert_ne by done. rewrite decide_False; [done|]. intros [? _]. done. }
      split_and!.
      + intros n' Hne. rewrite I1 by done. apply map_eq. intros l0. rewrite HP, decide_False; [done|]. by intros [? _].
      + intros l0 Hl0. apply I2. rewrite HP. destruct (decide _); eauto.
      + intros t' Ht'. assert (t' = t) as -> by congruence. destruct (I3 t Ht) as [J1 J2]. split.
        * intros l0 [->|Hl0]%elem_of_cons; [|by apply J1]. exists j, l'. split_and!; [done|done|]. apply I2. rewrite HP, decide_True by done. eauto.
        * intros l0 v0 H0. destruct (J2 l0 v0 H0) as [H0'|?]; [|by right]. rewrite HP in H0'. destruct (decide (n = n /\ l0 = l')) as [[_ ->]|_]; [|by left].
          injection H0' as <-. right. exists l, j. done. }
  assert (forall ps new new', NoDup ps.*1 -> foldM (fun new p => foldM (update_item o g rf p.1 p.2) new (o_vecs o (dom p.2))) new ps = Ok new' ->
    forall n t, h_schema (g_hirm g) !! n = Some t ->
      (n ∉ ps.*1 -> sd new' n = sd new n) /\
      forall data, (n, data) ∈ ps -> sd new n = ∅ ->
      (forall l v, data !! l = Some v -> exists j l', last l = Some j /\ items_for rf (t_domains t) (links_of g n) j = Ok l' /\ is_Some (sd new' n !! l')) /\
      (forall l' v, sd new' n !! l' = Some v -> exists l j, data !! l = Some v /\ last l = Some j /\ items_for rf (t_domains t) (links_of g n) j = Ok l')) as HG.
  { clear H. induction ps as [|[n0 d0] ps IH]; intros new new' Hnd H n t Ht; cbn [foldM] in H.
    - injection H as <-. split; [done|]. intros data Hd. by apply elem_of_nil in Hd.
    - apply obind_Ok in H as (new1 & H1 & H). cbn [fst snd fmap list_fmap] in *. apply NoDup_cons in Hnd as [Hn0 Hnd].
      destruct (HI n0 d0 _ _ _ H1) as (I1 & I2 & I3). destruct (IH _ _ Hnd H n t Ht) as [J1 J2]. split.
      + intros [Hne Hn]%not_elem_of_cons. rewrite J1 by done. by apply I1.
      + intros data [[= -> ->]|Hd]%elem_of_cons Hemp.
        * destruct (I3 t Ht) as [K1 K2]. rewrite (J1 Hn0). split.
          -- intros l v Hl. apply K1. destruct Ho as [Ho _]. rewrite (Ho (dom d0)), elem_of_elements, elem_of_dom. eauto.
          -- intros l' v Hl'. destruct (K2 l' v Hl') as [Hx|?]; [|done]. rewrite Hemp, lookup_empty in Hx. done.
        * apply J2; [done|]. rewrite <- Hemp. apply I1. intros ->. apply Hn0. apply elem_of_list_fmap. by exists (n0, data). }
  intros n t Ht.
  assert (NoDup (sorted_entries st).*1) as Hnd by apply sorted_entries_nodup.
  destruct (HG _ _ _ Hnd H n t Ht) as [H1 H2]. destruct (st !! n) as [data|] eqn:En.
  - assert (sd st n = data) as -> by (unfold sd; by rewrite En). apply H2; [|done]. by apply sorted_entries_iff.
  - assert (sd st n = ∅) as -> by (unfold sd; by rewrite En).
    assert (sd upd n = ∅) as ->. { rewrite H1; [done|]. intros Hin. apply elem_of_list_fmap in Hin as ([n' d'] & E & Hin). cbn in E. subst n'. apply sorted_entries_iff in Hin. congruence. }
    split; intros ? ?; by rewrite lookup_empty.
Qed.
End Update.
