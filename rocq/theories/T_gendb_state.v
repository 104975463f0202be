(** C40, C53 and C54: the entities, references and observations of a GenDB. *)
From Coq Require Import String Ascii.
From stdpp Require Import gmap strings list sorting relations.
From Coq Require Import ZArith Reals Lia.
From Verif Require Import M_base M_crp M_domain M_dist M_relation M_noisy M_irm M_hirm M_schema M_pclean_io M_gendb M_gendb_rels M_gendb_state M_pclean
  S_crp S_crp_state S_irm S_hirm S_gendb S_gendb_rels S_gendb_state P_base P_crp P_hirm_move P_gendb P_gendb_links P_gendb_rels P_tally T_gendb_schema
  T_gendb_rels P_gendb_ents P_gendb_fill P_gendb_data P_gendb_blank P_gendb_vec P_gendb_reach.
Local Open Scope nat_scope.

Section State.
Context {V : Type} (rid : hash_fn) (build : hdecl -> t_rel V) (show : V -> string) (only_final record_is_clean : bool) (s : pschema).
Hypotheses (WF : well_formed s) (Honce : record_is_clean = true -> record_queried_once s) (Hsh : forall c, shallow (ps_classes s) c)
  (Hfaith : faithful build).
Notation cs := (ps_classes s).
Notation fields := (pq_fields (ps_query s)).
Notation rc := (pq_record (ps_query s)).
(** The property of item vectors that is kept, in both modes. *)
Definition vector_of (e : ents) (n : string) (l : items_t) : Prop :=
  only_final = false -> direct record_is_clean s n -> relation_vector s e n l.
Definition rels_complete (g : gendb V) : Prop := forall n t c, h_schema (g_hirm g) !! n = Some t -> last (t_domains t) = Some c ->
  exists ns, g_rels g !! c = Some ns /\ n ∈ ns.

Section Made.
Variables (fuel : nat) (dm : gmap string (list string)) (refs : gmap string links) (m : made).
Hypotheses (Hdm : compute_domains fuel cs = Ok dm) (Hrefs : compute_refs fuel cs dm = Ok refs)
  (Hm : make_hirm_schema only_final record_is_clean s dm refs = Ok m).

Lemma paths_ok q path : fields !! q = Some path -> exists fs v, path = fs ++ [v].
Proof. intros Hq. destruct (wf_paths s WF q path Hq) as (fs & ks & z & v & j & ps & [Hq' _] & _). rewrite Hq in Hq'. injection Hq' as ->. eauto. Qed.
Lemma relation_vector_grow e e' n l : ents_grow e e' -> relation_vector s e n l -> relation_vector s e' n l.
Proof.
  intros Hg H. destruct H as [c v j ps i l Ha Hc|f v i l Hf Hc|f f1 v0 f2 k1 k k2 z v i l Hq Hl Hp].
  - eapply RV_attribute; [done|]. by eapply (proj1 (class_vector_grow cs e e' Hg)).
  - eapply RV_record; [done|]. by eapply (proj1 (class_vector_grow cs e e' Hg)).
  - eapply RV_chain; [done|done|]. by eapply path_vector_grow.
Qed.
Lemma vo_grow e e' n l : ents_grow e e' -> vector_of e n l -> vector_of e' n l.
Proof. intros Hg H Hof Hd. eapply relation_vector_grow; [done|by apply H]. Qed.
Lemma vo_base e n l o ds es b db : md_rels m !! n = Some (o, NoisyOf ds es b) -> md_rels m !! b = Some db ->
  vector_of e n l -> vector_of e b (take (length (decl_domains db.2)) l).
Proof.
  intros Hn Hb H Hof Hd. eapply (vector_base only_final record_is_clean s fuel dm refs m); try done. apply H; [done|].
  intros (Hc & v & Hf). pose proof (made_cases only_final record_is_clean s fuel dm refs m WF Honce Hdm Hrefs Hm n _ Hn) as Hmo.
  inversion Hmo as [| |? ? Hc'|? ? ? ? ? Hof'|f f1 v0 f2 k1 k k2 z v' j ps es' o' _ Hq Hl Ha Hnn]; subst; [congruence|congruence|].
  destruct k1 as [|k0 k1].
  - destruct Hq as [Hq _]. rewrite Hf in Hq. injection Hq as Hq. apply (f_equal length) in Hq. rewrite !app_length in Hq. simpl in Hq. lia.
  - eapply (lower_not_field k f (lower_name k f)); [|done]. apply (wf_fields s WF). eauto.
Qed.
Lemma vo_uniq e n d i e' l : md_rels m !! n = Some d ->
  unique_items_for rid e (decl_domains d.2) (default ∅ (md_refs m !! n)) i = Ok (e', l) -> vector_of e' n l.
Proof.
  intros Hd H Hof Hdir.
  assert (links_fill cs (decl_domains d.2) (default ∅ (md_refs m !! n))) as HF.
  { eapply (C52_links record_is_clean s fuel dm refs m); try done. by rewrite <- Hof. }
  destruct (unique_items_fill rid cs _ _ (fill_sound s _ _ HF) (fill_unique s _ _ HF) (lf_covered _ _ _ HF) _ _ _ _ H) as [Hfl Hl].
  by eapply (filled_vector only_final record_is_clean s fuel dm refs m).
Qed.
Lemma vo_path e q fs v i l : fields !! q = Some (fs ++ [v]) -> path_vector cs e rc fs i l -> vector_of e q l.
Proof. intros Hq Hv Hof Hd. by eapply path_field. Qed.
Lemma snd_ok n d : md_rels m !! n = Some d -> links_sound cs (decl_domains d.2) (default ∅ (md_refs m !! n)).
Proof. by apply (made_sound only_final record_is_clean s fuel dm refs m). Qed.
Notation inv := (ginv rid build s m vector_of).

Lemma new_inv r h r' rels : hirm_new (build <$> md_rels m) r = Ok (h, r') ->
  inv (Gendb s (md_refs m) rels (Ents ((fun _ => ∅) <$> cs) ((fun _ => crp_new) <$> cs)) h fuel).
Proof.
  intros [Hb Hs]%hirm_new_blank.
  assert (forall c f i x, ~ recorded (Ents ((fun _ => ∅) <$> cs) ((fun _ => crp_new) <$> cs)) c f i x) as Hno.
  { intros c f i x (mm & Hmm & Hx). cbn in Hmm. rewrite lookup_fmap in Hmm. apply fmap_Some in Hmm as (cl & _ & ->). by rewrite lookup_empty in Hx. }
  split; cbn; [done|done|done| |apply (bl_shaped _ Hb)|apply (bl_coded _ Hb)|].
  - split; cbn.
    + apply dom_fmap_L.
    + apply dom_fmap_L.
    + intros c f i x Hx. by apply Hno in Hx.
    + intros k crp Hk. rewrite lookup_fmap in Hk. apply fmap_Some in Hk as (cl & _ & ->). exists ∅. split; [apply holds_new|].
      intros id x. rewrite lookup_empty. split; [done|]. intros (c & f & i & _ & Hx & _). by apply Hno in Hx.
    + intros k c f i x c' f' i' x' _ _ Hx. by apply Hno in Hx.
  - intros n l v (a & Ha & Hl). rewrite (bl_nothing _ Hb n a Ha) in Hl. by rewrite lookup_empty in Hl.
Qed.
Definition inc_made := gendb_incorporate_ok rid build s m vector_of paths_ok snd_ok Hfaith vo_grow vo_base vo_uniq vo_path.
Definition query_made := query_items_ok rid build s m vector_of paths_ok snd_ok Hfaith vo_grow vo_uniq vo_path.
Definition for_class_made := for_class_ok rid build s m vector_of Hfaith vo_grow vo_base vo_uniq.
Definition for_class_step_made := for_class_step_ok rid build s m vector_of Hfaith vo_grow vo_base vo_uniq.
Definition incorporate_made := incorporate_query_ok rid build s m vector_of Hfaith vo_grow vo_base vo_uniq.
Definition sample_made := pclean_sample_ok rid build s m vector_of paths_ok Hfaith vo_grow vo_base vo_path.
End Made.

(** What holds of every reachable state, with the schema it was made of. *)
Lemma reach_inv g : gendb_reach rid build show only_final record_is_clean s g -> exists fuel dm refs m,
  compute_domains fuel cs = Ok dm /\ compute_refs fuel cs dm = Ok refs /\ make_hirm_schema only_final record_is_clean s dm refs = Ok m /\
  ginv rid build s m vector_of g /\ rels_complete g.
Proof.
  induction 1 as [fuel r g r' H|g unique i vals r g' r' _ IH H|g i r vals g' r' _ IH H|g h' _ IH H].
  - unfold gendb_new in H. apply obind_Ok in H as (dm & Hdm & H). apply obind_Ok in H as (refs & Hrefs & H). apply obind_Ok in H as (m & Hm & H).
    apply obind_Ok in H as ([h r1] & Hh & H). apply obind_Ok in H as (rels & Hrels & H). injection H as <- <-.
    exists fuel, dm, refs, m. split_and!; [done|done|done|by eapply new_inv|].
    intros n t c Ht Hl. cbn [g_hirm g_rels] in *.
    assert (forall l m0 m1, foldM (push_relation (h_schema h)) m0 l = Ok m1 ->
      (forall c n, (exists ns, m0 !! c = Some ns /\ n ∈ ns) -> exists ns, m1 !! c = Some ns /\ n ∈ ns) /\
      forall n, n ∈ l -> forall t c, h_schema h !! n = Some t -> last (t_domains t) = Some c -> exists ns, m1 !! c = Some ns /\ n ∈ ns) as HL.
    { clear. induction l as [|a l IH]; intros m0 m1 H; cbn [foldM] in H.
      - injection H as <-. split; [done|]. intros n Hn. by apply elem_of_nil in Hn.
      - apply obind_Ok in H as (m2 & Hp & H). unfold push_relation in Hp. apply obind_Ok in Hp as (t & Ht%at_Ok & Hp).
        apply obind_Ok in Hp as (c & Hc%idx_Ok & Hp). injection Hp as <-. destruct (IH _ _ H) as [I1 I2].
        assert (exists ns, (<[c:=default [] (m0 !! c) ++ [a]]> m0) !! c = Some ns /\ a ∈ ns) as Ha.
        { rewrite lookup_insert. eexists. split; [done|]. set_solver. }
        split.
        + intros c' n (ns & Hns & Hn). apply I1. destruct (decide (c' = c)) as [->|Hne].
          * rewrite lookup_insert. eexists. split; [done|]. rewrite Hns. cbn. set_solver.
          * rewrite lookup_insert_ne by done. eauto.
        + intros n Hn t' c' Ht' Hc'. apply elem_of_cons in Hn as [->|Hn]; [|by eapply I2]. apply I1. assert (t' = t) as -> by congruence. assert (c' = c) as -> by congruence. exact Ha. }
    destruct (HL _ _ _ Hrels) as [_ H2]. eapply H2; [|done|done]. apply elem_of_sorted_names. eauto.
  - destruct IH as (fuel & dm & refs & m & Hdm & Hrefs & Hm & Hg & Hr). exists fuel, dm, refs, m. split_and!; [done|done|done|..].
    + by destruct (inc_made fuel dm refs m Hdm Hrefs Hm _ _ _ _ _ _ _ Hg H) as (? & _).
    + destruct (inc_made fuel dm refs m Hdm Hrefs Hm _ _ _ _ _ _ _ Hg H) as (_ & [S1 S2 _ _] & _). intros n t c. rewrite S1, S2. apply Hr.
  - destruct IH as (fuel & dm & refs & m & Hdm & Hrefs & Hm & Hg & Hr). exists fuel, dm, refs, m. split_and!; [done|done|done|..];
      (apply (sample_made fuel dm refs m Hdm Hrefs Hm) in H; [|done]).
    + by destruct H as (? & _).
    + destruct H as (_ & [S1 S2 _ _] & _). intros n t c. rewrite S1, S2. apply Hr.
  - destruct IH as (fuel & dm & refs & m & Hdm & Hrefs & Hm & Hg & Hr). exists fuel, dm, refs, m. split_and!; [done|done|done|..].
    + by eapply (infer_ok rid build s m vector_of).
    + intros n t c. cbn. destruct H as [-> _]. apply Hr.
Qed.
End State.

(** * C40 *)
(** In every reachable state the references and the entity clusterings agree. *)
Theorem C40_bookkeeping {V} : forall rid (build : hdecl -> t_rel V) show only_final record_is_clean s g,
  well_formed s -> (record_is_clean = true -> record_queried_once s) -> (forall c, shallow (ps_classes s) c) -> faithful build ->
  gendb_reach rid build show only_final record_is_clean s g -> ents_agree rid (ps_classes s) (g_ents g).
Proof.
  intros rid build show of cl s g WF Ho Hsh Hf Hg.
  destruct (reach_inv rid build show of cl s WF Ho Hsh Hf g Hg) as (fuel & dm & refs & m & _ & _ & _ & Hi & _). apply (gi_agree _ _ _ _ _ g Hi).
Qed.
Print Assumptions C40_bookkeeping.

(** Neither rows nor samples change a reference. *)
Theorem C40_references_kept {V} : forall rid (build : hdecl -> t_rel V) show only_final record_is_clean s g,
  well_formed s -> (record_is_clean = true -> record_queried_once s) -> (forall c, shallow (ps_classes s) c) -> faithful build ->
  gendb_reach rid build show only_final record_is_clean s g ->
  (forall unique i vals r g' r', gendb_incorporate rid unique g i vals r = Ok (g', r') -> ents_grow (g_ents g) (g_ents g')) /\
  (forall i r vals g' r', pclean_sample show rid g i r = Ok (vals, g', r') -> ents_grow (g_ents g) (g_ents g')).
Proof.
  intros rid build show of cl s g WF Ho Hsh Hf Hg.
  destruct (reach_inv rid build show of cl s WF Ho Hsh Hf g Hg) as (fuel & dm & refs & m & Hdm & Hrefs & Hm & Hi & _). split.
  - intros unique i vals r g' r' H.
    destruct (inc_made rid build of cl s WF Ho Hsh Hf fuel dm refs m Hdm Hrefs Hm _ _ _ _ _ _ _ Hi H) as (_ & Hs & _). apply Hs.
  - intros i r vals g' r' H.
    destruct (sample_made rid build of cl s WF Ho Hsh Hf fuel dm refs m Hdm Hrefs Hm show _ _ _ _ _ _ Hi H) as (_ & Hs & _). apply Hs.
Qed.
Print Assumptions C40_references_kept.

(** Two references to the same class with the same hash cannot both be recorded: the second
    fails an assertion.  A hash into the values of an [int] has such a pair for every two
    reference fields to the same class. *)
Lemma collision_fails rid cs e c f i c' f' i' k x : closed_schema cs -> ents_agree rid cs e -> refers cs c f k -> refers cs c' f' k ->
  recorded e c f i x -> (forall y, ~ recorded e c' f' i' y) -> rid c f i = rid c' f' i' ->
  (forall r out, get_reference rid e c' f' i' k r <> Ok out) /\ unique_reference rid e c' f' i' (Ok k) = AssertFail.
Proof.
  intros Hclo HA Hr Hr' Hx Hno Hid.
  assert (exists m, en_refs e !! c' = Some m) as [m Hm].
  { apply elem_of_dom. rewrite (ea_refs _ _ _ HA). destruct Hr' as (cl & Hcl & _). apply elem_of_dom. eauto. }
  assert (m !! (f', i') = None) as Hmn. { destruct (m !! (f', i')) as [y|] eqn:E; [|done]. exfalso. apply (Hno y). by exists m. }
  assert (exists crp, en_crps e !! k = Some crp) as [crp Hk].
  { apply elem_of_dom. rewrite (ea_crps _ _ _ HA). apply elem_of_dom. by eapply Hclo. }
  destruct (ea_seated _ _ _ HA k crp Hk) as (a & Hs & Ha).
  assert (a !! rid c' f' i' = Some x) as Hin. { apply Ha. exists c, f, i. done. }
  assert (forall y, put_reference rid e c' f' i' k y = AssertFail) as Hput.
  { intros y. unfold put_reference. rewrite Hm, Hk. cbn [at_ obind]. erewrite holds_incorporate_assert; [done|exact Hs|eauto]. }
  split.
  - intros r out H. unfold get_reference in H. rewrite Hm in H. cbn [at_ obind] in H. rewrite Hmn in H. unfold sample_reference in H.
    rewrite Hk in H. cbn [at_ obind] in H. apply obind_Ok in H as ([e1 r1] & H & _). apply obind_Ok in H as ([y r2] & _ & H). by rewrite Hput in H.
  - unfold unique_reference. rewrite Hm. cbn [at_ obind]. rewrite Hmn, Hk. cbn [at_ obind].
    destruct (max_table_spec crp a Hs) as (mx & -> & _); [intros ->; by rewrite lookup_empty in Hin|]. cbn [obind]. by rewrite Hput.
Qed.
Lemma not_nodup {A} `{EqDecision A} (l : list A) : ~ NoDup l -> exists i j x, i <> j /\ l !! i = Some x /\ l !! j = Some x.
Proof.
  induction l as [|a l IH]; intros H; [by destruct H; constructor|].
  destruct (decide (a ∈ l)) as [Ha|Ha].
  - apply elem_of_list_lookup in Ha as [i Hi]. by exists 0, (S i), a.
  - destruct IH as (i & j & x & Hij & Hi & Hj); [intros Hl; apply H; by constructor|]. exists (S i), (S j), x. split; [lia|done].
Qed.
Lemma collision_pair (h : Z) : (0 < h)%Z -> forall rid cs c f c' f' k,
  (forall c f i, (- h <= rid c f i < h)%Z) ->
  closed_schema cs -> refers cs c f k -> refers cs c' f' k -> (c, f) <> (c', f') ->
  exists d g i d' g' i', (d, g, i) <> (d', g', i') /\ (- h <= i < h)%Z /\ (- h <= i' < h)%Z /\
    refers cs d g k /\ refers cs d' g' k /\
    forall e x, ents_agree rid cs e -> recorded e d g i x -> (forall y, ~ recorded e d' g' i' y) ->
      (forall r out, get_reference rid e d' g' i' k r <> Ok out) /\ unique_reference rid e d' g' i' (Ok k) = AssertFail.
Proof.
  intros Hh rid cs c f c' f' k Hrange Hclo Hr Hr' Hne.
  set (ints := seqZ (- h) (2 * h)).
  set (keys := map (fun i => (c, f, i)) ints ++ map (fun i => (c', f', i)) ints).
  set (ids := map (fun p : string * string * Z => rid p.1.1 p.1.2 p.2) keys).
  assert (length ints = Z.to_nat (2 * h)) as Hlen by apply seqZ_length.
  assert (0 < Z.to_nat (2 * h)) as Hpos by lia.
  assert (~ NoDup ids) as Hnd.
  { intros Hnd. assert (length ids <= length ints) as Hle.
    { apply submseteq_length, NoDup_submseteq; [done|]. intros y Hy. apply elem_of_list_fmap in Hy as (p & -> & _). apply elem_of_seqZ.
      specialize (Hrange p.1.1 p.1.2 p.2). lia. }
    unfold ids, keys in Hle. rewrite map_length, app_length, !map_length, Hlen in Hle. lia. }
  apply not_nodup in Hnd as (a & b & y & Hab & Ha & Hb). unfold ids in Ha, Hb.
  apply list_lookup_fmap_Some in Ha as ([[d g] i] & Ha & Ey). apply list_lookup_fmap_Some in Hb as ([[d' g'] i'] & Hb & Ey').
  assert (forall n d g i, keys !! n = Some (d, g, i) -> (- h <= i < h)%Z /\ refers cs d g k) as Hkeys.
  { intros n d0 g0 i0 Hn. apply elem_of_list_lookup_2 in Hn. unfold keys in Hn. apply elem_of_app in Hn as [Hn|Hn];
      apply elem_of_list_fmap in Hn as (i1 & [= -> -> ->] & Hi); apply elem_of_seqZ in Hi; (split; [lia|done]). }
  assert (NoDup keys) as HK.
  { unfold keys. apply NoDup_app. split_and!.
    - apply NoDup_fmap_2; [intros ? ? [=]; done|apply NoDup_seqZ].
    - intros p H1 H2. apply elem_of_list_fmap in H1 as (i1 & -> & _). apply elem_of_list_fmap in H2 as (i2 & [= -> -> ->] & _). done.
    - apply NoDup_fmap_2; [intros ? ? [=]; done|apply NoDup_seqZ]. }
  destruct (Hkeys _ _ _ _ Ha) as [Hi Hd], (Hkeys _ _ _ _ Hb) as [Hi' Hd'].
  exists d, g, i, d', g', i'. split_and!; try done; try lia.
  - intros E. rewrite <- E in Hb. apply Hab. by eapply NoDup_lookup.
  - intros e x HA Hx Hno. apply (collision_fails rid cs e d g i d' g' i' k x Hclo HA Hd Hd' Hx Hno). cbn in Ey, Ey'. congruence.
Qed.
Theorem C40_collision_refuted : forall rid cs c f c' f' k,
  (forall c f i, (- 2 ^ 31 <= rid c f i < 2 ^ 31)%Z) ->
  closed_schema cs -> refers cs c f k -> refers cs c' f' k -> (c, f) <> (c', f') ->
  exists d g i d' g' i', (d, g, i) <> (d', g', i') /\ (- 2 ^ 31 <= i < 2 ^ 31)%Z /\ (- 2 ^ 31 <= i' < 2 ^ 31)%Z /\
    refers cs d g k /\ refers cs d' g' k /\
    forall e x, ents_agree rid cs e -> recorded e d g i x -> (forall y, ~ recorded e d' g' i' y) ->
      (forall r out, get_reference rid e d' g' i' k r <> Ok out) /\ unique_reference rid e d' g' i' (Ok k) = AssertFail.
Proof. apply collision_pair. lia. Qed.
Print Assumptions C40_collision_refuted.

(** * C53 *)
(** With an emission for every class of a path, the items of every observation of a
    relation are an entity of its class with the entities it refers to, except for fields
    that rename an attribute of the record class. *)
Theorem C53_vectors {V} : forall rid (build : hdecl -> t_rel V) show record_is_clean s g,
  well_formed s -> (record_is_clean = true -> record_queried_once s) -> (forall c, shallow (ps_classes s) c) -> faithful build ->
  gendb_reach rid build show false record_is_clean s g ->
  forall n l v, observed (g_hirm g) n l v -> ~ (record_is_clean = true /\ exists u, pq_fields (ps_query s) !! n = Some [u]) ->
  relation_vector s (g_ents g) n l.
Proof.
  intros rid build show cl s g WF Ho Hsh Hf Hg n l v Hv Hd.
  destruct (reach_inv rid build show false cl s WF Ho Hsh Hf g Hg) as (fuel & dm & refs & m & _ & _ & _ & Hi & _).
  exact (gi_data _ _ _ _ _ g Hi n l v Hv eq_refl Hd).
Qed.
Print Assumptions C53_vectors.

(** * C54 *)
Section Rows.
Context {V : Type} (rid : hash_fn) (build : hdecl -> t_rel V) (only_final record_is_clean : bool) (s : pschema).
Hypotheses (WF : well_formed s) (Honce : record_is_clean = true -> record_queried_once s) (Hsh : forall c, shallow (ps_classes s) c)
  (Hfaith : faithful build).
Lemma query_items_last fuel dm refs m (Hdm : compute_domains fuel (ps_classes s) = Ok dm) (Hrefs : compute_refs fuel (ps_classes s) dm = Ok refs)
  (Hm : make_hirm_schema only_final record_is_clean s dm refs = Ok m) Q unique g q i r l g' r' :
  ginv rid build s m Q g -> query_items rid unique g q i r = Ok (l, g', r') -> last l = Some i.
Proof.
  intros Hg H. unfold query_items in H. rewrite (gi_schema _ _ _ _ _ g Hg) in H. apply obind_Ok in H as (path & Hp%at_Ok & H). destruct unique.
  - apply obind_Ok in H as (t & Ht%at_Ok & H). apply obind_Ok in H as ([e l'] & Hu & H). injection H as <- <- <-.
    destruct (declared rid build s m Q g _ _ Hg Ht) as (d & Hd & ->). rewrite (links_of_eq rid build s m Q g q Hg), (proj1 (Hfaith d)) in Hu.
    by eapply (unique_items_last only_final record_is_clean s fuel dm refs m).
  - apply obind_Ok in H as ([[l' e] r1] & Hu & H). injection H as <- <- <-. destruct (paths_ok s WF q path Hp) as (fs & v & ->).
    apply (path_entities_ok rid) in Hu as [_ Hv]. by eapply path_vector_last.
Qed.
End Rows.

(** A row that is accepted is stored: each of its values becomes an observation of its
    field, for the row and at items that had none; and nothing is lost. *)
Theorem C54_row_stored {V} : forall rid (build : hdecl -> t_rel V) show only_final record_is_clean s g unique i vals r g' r',
  well_formed s -> (record_is_clean = true -> record_queried_once s) -> (forall c, shallow (ps_classes s) c) -> faithful build ->
  gendb_reach rid build show only_final record_is_clean s g -> gendb_incorporate rid unique g i vals r = Ok (g', r') ->
  (forall q v, vals !! q = Some v -> exists l, last l = Some i /\ observed (g_hirm g') q l v /\ forall w, ~ observed (g_hirm g) q l w) /\
  (forall n l v, observed (g_hirm g) n l v -> observed (g_hirm g') n l v).
Proof.
  intros rid build show of cl s g unique i vals r g' r' WF Ho Hsh Hf Hg H.
  destruct (reach_inv rid build show of cl s WF Ho Hsh Hf g Hg) as (fuel & dm & refs & m & Hdm & Hrefs & Hm & Hi & _).
  destruct (inc_made rid build of cl s WF Ho Hsh Hf fuel dm refs m Hdm Hrefs Hm _ _ _ _ _ _ _ Hi H) as (_ & Hs & Hq).
  split; [|apply Hs]. intros q v Hv. destruct (Hq q v Hv) as (l & g1 & r1 & g2 & r2 & Hg1 & _ & _ & Hqi & Hob & Hno). exists l. split_and!; [|done|done].
  by eapply (query_items_last rid build of cl s WF Ho Hsh Hf fuel dm refs m Hdm Hrefs Hm).
Qed.
Print Assumptions C54_row_stored.

(** A row cannot be incorporated again: not with a field that already has an observation for
    that row.  (The caller has to choose new numbers for new rows.) *)
Theorem C54_row_once {V} : forall rid (build : hdecl -> t_rel V) show record_is_clean s g unique i vals r q l v w,
  well_formed s -> (record_is_clean = true -> record_queried_once s) -> (forall c, shallow (ps_classes s) c) -> faithful build ->
  gendb_reach rid build show false record_is_clean s g ->
  observed (g_hirm g) q l w -> last l = Some i -> vals !! q = Some v -> is_Some (pq_fields (ps_query s) !! q) ->
  ~ (record_is_clean = true /\ exists u, pq_fields (ps_query s) !! q = Some [u]) ->
  forall out, gendb_incorporate rid unique g i vals r <> Ok out.
Proof.
  intros rid build show cl s g unique i vals r q l v w WF Ho Hsh Hf Hg Hw Hl Hv Hq Hd [g' r'] H.
  destruct (C54_row_stored _ _ _ _ _ _ _ _ _ _ _ _ _ WF Ho Hsh Hf Hg H) as [Hst Hkeep].
  destruct (Hst q v Hv) as (l' & Hl' & Hob & Hno). apply (Hno w).
  assert (gendb_reach rid build show false cl s g') as Hg' by by eapply GR_row.
  destruct (reach_inv rid build show false cl s WF Ho Hsh Hf g Hg) as (fuel & dm & refs & m & Hdm & Hrefs & Hm & _).
  pose proof (C53_vectors _ _ _ _ _ _ WF Ho Hsh Hf Hg' _ _ _ Hob Hd) as H1.
  pose proof (C53_vectors _ _ _ _ _ _ WF Ho Hsh Hf Hg' _ _ _ (Hkeep _ _ _ Hw) Hd) as H2.
  assert (l' = l) as ->; [|done].
  eapply (field_vector_det false cl s fuel dm refs m); try done. congruence.
Qed.
Print Assumptions C54_row_once.
