(** C53 and C54: rows with entities of their own, and the rows that go wrong. *)
From Coq Require Import String Ascii.
From stdpp Require Import gmap strings list sorting relations.
From Coq Require Import ZArith Reals Lia.
From Verif Require Import M_base M_crp M_domain M_dist M_relation M_noisy M_irm M_hirm M_schema M_pclean_io M_gendb M_gendb_rels M_gendb_state M_pclean
  S_crp S_crp_state S_irm S_hirm S_gendb S_gendb_rels S_gendb_state P_base P_crp P_hirm_move P_gendb P_gendb_links P_gendb_rels P_tally T_gendb_schema
  T_gendb_rels P_gendb_ents P_gendb_fill P_gendb_data P_gendb_blank P_gendb_vec P_gendb_reach T_gendb_state.
Local Open Scope nat_scope.

Section Own.
Context (rid : hash_fn) (cs : gmap string pclass).
Lemma own_refl e : own_entities cs e e.
Proof. intros k c f i c' f' i' x _ _ H1 H2. by left. Qed.
Lemma own_trans e1 e2 e3 : own_entities cs e1 e2 -> own_entities cs e2 e3 -> own_entities cs e1 e3.
Proof. intros A B k c f i c' f' i' x Hr Hr' H1 H2. destruct (B k c f i c' f' i' x Hr Hr' H1 H2) as [[? ?]|?]; [by eapply A|by right]. Qed.
Lemma unique_reference_own e c f i k x e' : ents_agree rid cs e -> refers cs c f k -> unique_reference rid e c f i (Ok k) = Ok (x, e') ->
  own_entities cs e e'.
Proof.
  intros HA Hr H. unfold unique_reference in H. apply obind_Ok in H as (m & Hm%at_Ok & H). apply obind_Ok in H as (e1 & H1 & H).
  apply obind_Ok in H as (m1 & _ & H). apply obind_Ok in H as (y & _ & H). injection H as -> ->.
  destruct (m !! (f, i)) as [z|] eqn:E; [injection H1 as ->; apply own_refl|].
  apply obind_Ok in H1 as (? & [= <-] & H1). apply obind_Ok in H1 as (crp & Hk%at_Ok & H1). apply obind_Ok in H1 as (mx & Hmx & H1).
  assert (forall y, ~ recorded e c f i y) as Hno by (intros y (m' & ? & ?); congruence).
  pose proof (put_reference_added rid _ _ _ _ _ _ _ Hno H1) as [Hadd].
  destruct (ea_seated _ _ _ HA k crp Hk) as (a & Ha & Hcust).
  assert (forall d g j w, refers cs d g k -> recorded e d g j w -> w <> (mx + 1)%Z) as Hnew.
  { intros d g j w Hd Hw ->. assert (a !! rid d g j = Some (mx + 1)%Z) as Hin by (apply Hcust; eauto 6).
    destruct (max_table_spec crp a Ha) as (mx' & Hmx' & _ & Hmax); [intros ->; by rewrite lookup_empty in Hin|].
    assert (mx' = mx) as -> by congruence.
    assert (mx + 1 <= mx)%Z; [|lia]. apply Hmax. apply non_empty_inhabited_L with (rid d g j). by apply elem_of_customers_at. }
  intros k' d g j d' g' j' w Hd Hd' H2 H3. apply Hadd in H2 as [Hw|E2]; apply Hadd in H3 as [Hw'|E3].
  - by left.
  - injection E3 as -> -> -> ->. assert (k' = k) as -> by exact (refers_fun cs _ _ _ _ Hd' Hr). by apply Hnew in Hw.
  - injection E2 as -> -> -> ->. assert (k' = k) as -> by exact (refers_fun cs _ _ _ _ Hd Hr). by apply Hnew in Hw'.
  - right. injection E2 as -> -> -> ->. by injection E3 as -> -> ->.
Qed.
Lemma unique_entities_own ds r (Hs : links_sound cs ds r) fuel : forall e items ind i e' items', ents_agree rid cs e ->
  unique_entities fuel rid ds r (e, items) ind i = Ok (e', items') -> own_entities cs e e'.
Proof.
  induction fuel as [|fuel IH]; intros e items ind i e' items' HA H; cbn [unique_entities] in H; [done|].
  apply obind_Ok in H as (it1 & _ & H). destruct (r !! ind) as [m|] eqn:Em; [|injection H as <- <-; apply own_refl].
  revert e it1 HA H. generalize (sorted_names m). intros fs. induction fs as [|f fs IHf]; intros e it HA H; cbn [foldM] in H.
  { injection H as <- <-. apply own_refl. }
  apply obind_Ok in H as ([e1 it2] & Hst & H). cbn [unique_step] in Hst.
  apply obind_Ok in Hst as (j & Hj%at_Ok & Hst). apply obind_Ok in Hst as (c & Hc%idx_Ok & Hst). apply obind_Ok in Hst as ([x e2] & Hr & Hst).
  assert (link r ind f = Some j) as Hl by (unfold link; by rewrite Em).
  destruct (Hs _ _ _ Hl) as (_ & k & k' & Hk & Hk' & Href). assert (k = c) as -> by congruence. rewrite Hk' in Hr. cbn [at_] in Hr.
  destruct (unique_reference_ok _ _ _ _ _ _ _ _ _ Href Hr) as [[S0 _] _]. specialize (S0 HA).
  pose proof (unique_reference_own _ _ _ _ _ _ _ HA Href Hr) as O1. pose proof (IH _ _ _ _ _ _ S0 Hst) as O2.
  destruct (unique_entities_step rid cs _ _ Hs _ _ _ _ _ _ _ Hst) as [[S1 _] _].
  eapply own_trans; [exact O1|]. eapply own_trans; [exact O2|]. apply (IHf _ _ (S1 S0) H).
Qed.
End Own.

(** Looking a value's items up with entities of their own makes no new reference to an
    entity that anything else refers to. *)
Theorem C54_own_entities {V} : forall rid (build : hdecl -> t_rel V) show only_final record_is_clean s g q i r l g' r',
  well_formed s -> (record_is_clean = true -> record_queried_once s) -> (forall c, shallow (ps_classes s) c) -> faithful build ->
  gendb_reach rid build show only_final record_is_clean s g -> query_items rid true g q i r = Ok (l, g', r') ->
  own_entities (ps_classes s) (g_ents g) (g_ents g') /\ ents_grow (g_ents g) (g_ents g').
Proof.
  intros rid build show of cl s g q i r l g' r' WF Ho Hsh Hf Hg H.
  destruct (reach_inv rid build show of cl s WF Ho Hsh Hf g Hg) as (fuel & dm & refs & m & Hdm & Hrefs & Hm & Hi & _). split.
  - unfold query_items in H. rewrite (gi_schema _ _ _ _ _ g Hi) in H. apply obind_Ok in H as (path & _ & H). apply obind_Ok in H as (t & Ht%at_Ok & H).
    apply obind_Ok in H as ([e l'] & Hu & H). injection H as <- <- <-.
    destruct (declared rid build s m _ g _ _ Hi Ht) as (d & Hd & ->). rewrite (links_of_eq rid build s m _ g q Hi), (proj1 (Hf d)) in Hu.
    cbn. unfold unique_items_for in Hu. destruct (length (decl_domains d.2)) as [|n]; [done|].
    eapply unique_entities_own; [|apply (gi_agree _ _ _ _ _ g Hi)|exact Hu]. by eapply (snd_ok of cl s WF Ho Hsh fuel dm refs m).
  - destruct (query_made rid build of cl s WF Ho Hsh Hf fuel dm refs m Hdm Hrefs Hm _ _ _ _ _ _ _ _ Hi H) as (_ & Hs & _). apply Hs.
Qed.
Print Assumptions C54_own_entities.

(** ** A clean record class *)
(** With [record_class_is_clean], a value of a field that names an attribute of the record
    class is stored for the row and entity 0 of every class the record refers to. *)
Theorem C53_record_clean_refuted {V} : forall rid (build : hdecl -> t_rel V) show only_final s g q u i r l g' r',
  well_formed s -> record_queried_once s -> (forall c, shallow (ps_classes s) c) -> faithful build ->
  gendb_reach rid build show only_final true s g -> pq_fields (ps_query s) !! q = Some [u] ->
  query_items rid true g q i r = Ok (l, g', r') ->
  (exists n, l = replicate n 0%Z ++ [i]) /\ g_ents g' = g_ents g.
Proof.
  intros rid build show of s g q u i r l g' r' WF Ho Hsh Hf Hg Hq H.
  destruct (reach_inv rid build show of true s WF (fun _ => Ho) Hsh Hf g Hg) as (fuel & dm & refs & m & Hdm & Hrefs & Hm & Hi & _).
  unfold query_items in H. rewrite (gi_schema _ _ _ _ _ g Hi) in H. apply obind_Ok in H as (path & _ & H). apply obind_Ok in H as (t & Ht%at_Ok & H).
  apply obind_Ok in H as ([e l'] & Hu & H). injection H as <- <- <-.
  destruct (declared rid build s m _ g _ _ Hi Ht) as (d & Hd & ->). rewrite (links_of_eq rid build s m _ g q Hi), (proj1 (Hf d)) in Hu.
  assert (default ∅ (md_refs m !! q) = ∅) as E.
  { pose proof (made_cases of true s fuel dm refs m WF (fun _ => Ho) Hdm Hrefs Hm q d Hd) as Hmo.
    remember (default ∅ (md_refs m !! q)) as rr eqn:Er. destruct Hmo as [c v j ps sp Ha Hn|v sp _ _|v es Hc|fs ks z v es Hof [Hq' _] Hfs|f f1 v0 f2 k1 k k2 z v j ps es o Hof [Hq' _] Hl Ha Hn].
    - exfalso. eapply (field_name_not_attr s WF q q); [|exact Ha|by left|exact Hn]. apply (wf_fields s WF). by exists [u].
    - done.
    - done.
    - rewrite Hq in Hq'. injection Hq' as Hq'. destruct fs as [|a [|b fs]]; done.
    - exfalso. destruct k1 as [|k0 k1].
      + subst f. rewrite Hq in Hq'. injection Hq' as Hq'. apply (f_equal length) in Hq'. rewrite !app_length in Hq'. simpl in Hq'. lia.
      + eapply (lower_not_field k f q); [|symmetry; exact Hn]. apply (wf_fields s WF). by exists [u]. }
  rewrite E in Hu. unfold unique_items_for in Hu. destruct (length (decl_domains d.2)) as [|n]; [done|]. cbn [unique_entities] in Hu.
  apply obind_Ok in Hu as (it & Hp & Hu). rewrite lookup_empty in Hu. injection Hu as <- <-. split; [|done].
  apply put_item_Ok in Hp as [_ ->]. exists n. replace (S n) with (n + 1) by lia. rewrite replicate_add. cbn [replicate].
  rewrite insert_app_r_alt by (rewrite replicate_length; lia). by rewrite replicate_length, Nat.sub_diag.
Qed.
Print Assumptions C53_record_clean_refuted.

(** ** A noisy record class *)
Section Noisy.
Context {V : Type} (rid : hash_fn) (build : hdecl -> t_rel V) (only_final : bool) (s : pschema).
Notation cl := false.
Hypotheses (WF : well_formed s) (Hsh : forall c, shallow (ps_classes s) c) (Hf : faithful build).
Variables (fuel0 : nat) (dm : gmap string (list string)) (refs : gmap string links) (m : made).
Hypotheses (Hdm : compute_domains fuel0 (ps_classes s) = Ok dm) (Hrefs : compute_refs fuel0 (ps_classes s) dm = Ok refs)
  (Hm : make_hirm_schema only_final cl s dm refs = Ok m).
Notation inv := (ginv rid build s m (vector_of only_final cl s)).
Variables (q u : string).
Hypothesis (Hq : pq_fields (ps_query s) !! q = Some [u]).
Notation rc := (pq_record (ps_query s)).
Let Ho : cl = true -> record_queried_once s.
Proof. done. Qed.

Lemma record_decl d : md_rels m !! q = Some d -> exists o es, d = (o, NoisyOf (doms dm rc) es (attr_name rc u)).
Proof.
  intros Hd. pose proof (made_cases only_final cl s fuel0 dm refs m WF Ho Hdm Hrefs Hm q d Hd) as Hmo.
  destruct Hmo as [c v j ps sp Ha Hn|v sp Hc _|v es _ Hv|fs ks z v es Hof [Hq' _] Hfs|f f1 v0 f2 k1 k k2 z v j ps es o Hof [Hq' _] Hl Ha Hn].
  - exfalso. eapply (field_name_not_attr s WF q q); [|exact Ha|by left|exact Hn]. apply (wf_fields s WF). by exists [u].
  - done.
  - rewrite Hq in Hv. injection Hv as <-. eauto.
  - rewrite Hq in Hq'. injection Hq' as Hq'. destruct fs as [|a [|b fs]]; done.
  - exfalso. destruct k1 as [|k0 k1].
    + subst f. rewrite Hq in Hq'. injection Hq' as Hq'. apply (f_equal length) in Hq'. rewrite !app_length in Hq'. simpl in Hq'. lia.
    + eapply (lower_not_field k f q); [|symmetry; exact Hn]. apply (wf_fields s WF). by exists [u].
Qed.
Lemma record_attr_decl d : md_rels m !! attr_name rc u = Some d -> last (decl_domains d.2) = Some rc.
Proof.
  destruct (computed_facts s fuel0 dm refs (wf_closed s WF) Hdm Hrefs) as (_ & _ & Hend & _).
  intros Hd. pose proof (attr_decl only_final cl s fuel0 dm refs m) as HA.
  destruct (wf_paths s WF q [u] Hq) as (fs & ks & z & v & j & ps & [Hq' Hp] & Ha). rewrite Hq in Hq'. injection Hq' as Hq'.
  destruct fs as [|a [|b fs]]; try done. injection Hq' as <-. assert (z = rc) as -> by by inversion Hp.
  destruct (HA WF Ho Hdm Hrefs Hm rc u j ps Ha) as [sp Hsp]; [done|]. rewrite Hd in Hsp. injection Hsp as ->. cbn.
  destruct (Hend rc) as [ds ->]; [destruct Ha as (c & Hc & _); eauto|]. by rewrite last_snoc.
Qed.
Lemma no_for_class fuel : forall g i r out, inv g -> rels_complete g -> is_Some (h_schema (g_hirm g) !! q) -> for_class fuel rid g rc i r <> Ok out.
Proof.
  induction fuel as [|fuel IH]; intros g i r out Hg HR Hin H; cbn [for_class] in H; [done|].
  apply obind_Ok in H as (ns & Hns%at_Ok & H).
  assert (q ∈ ns) as Hqn.
  { destruct Hin as [t Ht]. destruct (declared rid build s m _ g _ _ Hg Ht) as (d & Hd & ->).
    destruct (record_decl d Hd) as (o & es & ->). edestruct HR as (ns' & Hns' & Hin'); [exact Ht| |].
    - rewrite (proj1 (Hf _)). cbn. destruct (computed_facts s fuel0 dm refs (wf_closed s WF) Hdm Hrefs) as (_ & _ & Hend & _).
      destruct (Hend rc) as [ds ->]; [apply (wf_record s WF)|]. apply last_snoc.
    - by assert (ns' = ns) as <- by congruence. }
  clear Hns. revert g r Hg HR Hin H. induction ns as [|n ns IHn]; intros g r Hg HR Hin H; [by apply elem_of_nil in Hqn|].
  cbn [foldM] in H. apply obind_Ok in H as ([g1 r1] & Hst & H). destruct (decide (n = q)) as [->|Hne].
  - clear IHn H Hqn. unfold for_class_step in Hst. apply obind_Ok in Hst as ([[l e] r2] & Hanc & Hst). rewrite (gi_schema _ _ _ _ _ g Hg) in Hanc.
    apply class_ancestors_ok in Hanc as [Hse _].
    destruct (set_ents rid build s m _ (vo_grow only_final cl s) g e Hg Hse) as [Hg2 Hs2].
    apply obind_Ok in Hst as (t & Ht%at_Ok & Hst). apply obind_Ok in Hst as (items & _ & Hst).
    destruct (declared rid build s m _ _ _ _ Hg2 Ht) as (d & Hd & ->). destruct (record_decl d Hd) as (o & es & ->).
    destruct (Hf (o, NoisyOf (doms dm rc) es (attr_name rc u))) as [_ Hb]. cbn [snd] in Hb.
    destruct (build _) as [|ds o' E sp base]; [done|]. cbn in Hb. injection Hb as ->.
    apply obind_Ok in Hst as (out' & Hst & _). apply obind_Ok in Hst as (bi & _ & Hst). apply obind_Ok in Hst as (tb & Htb%at_Ok & Hst).
    apply obind_Ok in Hst as (c' & Hc'%idx_Ok & Hst). apply obind_Ok in Hst as (i' & _ & Hst).
    destruct (declared rid build s m _ _ _ _ Hg2 Htb) as (db & Hdb & ->). rewrite (proj1 (Hf db)), (record_attr_decl db Hdb) in Hc'. injection Hc' as <-.
    by eapply IH in Hst.
  - apply elem_of_cons in Hqn as [?|Hqn]; [congruence|].
    destruct (for_class_step_made rid build only_final cl s WF Ho Hsh Hf fuel0 dm refs m Hdm Hrefs Hm (for_class fuel rid) _ _ _ _ _ _ _
      (for_class_made rid build only_final cl s WF Ho Hsh Hf fuel0 dm refs m Hdm Hrefs Hm fuel) Hg Hst) as [Hg1 [S1 S2 _ _]].
    eapply IHn; [done|exact Hg1| | |exact H].
    + intros n' t c. rewrite S1, S2. apply HR.
    + by rewrite S1.
Qed.
Lemma no_row unique i vals qs : q ∈ qs -> forall g r out, inv g -> rels_complete g ->
  foldM (incorporate_step rid unique i vals) (g, r) qs <> Ok out.
Proof.
  induction qs as [|n qs IH]; intros Hqn g r out Hg HR H; [by apply elem_of_nil in Hqn|]. cbn [foldM] in H.
  apply obind_Ok in H as ([g1 r1] & Hst & H). unfold incorporate_step in Hst. apply obind_Ok in Hst as (v & _ & Hst).
  apply obind_Ok in Hst as ([[l g2] r2] & Hqi & Hst).
  destruct (query_made rid build only_final cl s WF Ho Hsh Hf fuel0 dm refs m Hdm Hrefs Hm _ _ _ _ _ _ _ _ Hg Hqi) as (Hg2 & [S1 S2 _ _] & HQ).
  destruct (decide (n = q)) as [->|Hne].
  - unfold incorporate_query in Hst. apply obind_Ok in Hst as (t & Ht%at_Ok & Hst).
    assert (rels_complete g2) as HR2 by (intros n' t' c; rewrite S1, S2; apply HR). assert (is_Some (h_schema (g_hirm g2) !! q)) as Hin by eauto.
    destruct (declared rid build s m _ _ _ _ Hg2 Ht) as (d & Hd & ->). destruct (record_decl d Hd) as (o & es & ->).
    destruct (Hf (o, NoisyOf (doms dm rc) es (attr_name rc u))) as [_ Hb]. cbn [snd] in Hb.
    destruct (build _) as [|ds o' E sp base]; [done|]. cbn in Hb. injection Hb as ->.
    apply obind_Ok in Hst as (out' & Hst & _). apply obind_Ok in Hst as (bi & _ & Hst). apply obind_Ok in Hst as (tb & Htb%at_Ok & Hst).
    apply obind_Ok in Hst as (c' & Hc'%idx_Ok & Hst). apply obind_Ok in Hst as (i' & _ & Hst).
    destruct (declared rid build s m _ _ _ _ Hg2 Htb) as (db & Hdb & ->). rewrite (proj1 (Hf db)), (record_attr_decl db Hdb) in Hc'. injection Hc' as <-.
    by eapply no_for_class in Hst.
  - apply elem_of_cons in Hqn as [?|Hqn]; [congruence|].
    destruct (incorporate_made rid build only_final cl s WF Ho Hsh Hf fuel0 dm refs m Hdm Hrefs Hm _ _ _ _ _ _ _ Hg2 HQ Hst) as (Hg1 & [S3 S4 _ _] & _).
    eapply (IH Hqn); [exact Hg1| |exact H]. intros n' t c. rewrite S3, S4, S1, S2. apply HR.
Qed.
End Noisy.

(** Without [record_class_is_clean], no row with a value for an attribute of the record
    class can be incorporated: its base lies in the same class, and the recursion over the
    relations of that class never ends. *)
Theorem C54_record_noisy_refuted {V} : forall rid (build : hdecl -> t_rel V) show only_final s g unique i vals r q u,
  well_formed s -> (forall c, shallow (ps_classes s) c) -> faithful build ->
  gendb_reach rid build show only_final false s g -> pq_fields (ps_query s) !! q = Some [u] -> is_Some (vals !! q) ->
  forall out, gendb_incorporate rid unique g i vals r <> Ok out.
Proof.
  intros rid build show of s g unique i vals r q u WF Hsh Hf Hg Hq Hv out.
  destruct (reach_inv rid build show of false s WF ltac:(done) Hsh Hf g Hg) as (fuel & dm & refs & m & Hdm & Hrefs & Hm & Hi & HR).
  eapply no_row; try done. by apply elem_of_sorted_names.
Qed.
Print Assumptions C54_record_noisy_refuted.

(** ** Concrete states *)
Definition tally_build (d : hdecl) : t_rel bool :=
  match d.2 with Clean ds _ => TClean ds d.1 tally_dist tt | NoisyOf ds _ b => TNoisy ds d.1 (copy_emission bool) tt b end.
Lemma tally_faithful : faithful tally_build.
Proof. by intros [o [ds sp|ds es b]]. Qed.
Definition text_code (x : string) : Z := foldl (fun a c => (a * 1000 + Z.of_nat (nat_of_ascii c))%Z) 1%Z (list_ascii_of_string x).
Definition wide_hash (c f : string) (i : Z) : Z := (text_code c * 1000 ^ 40 + text_code f * 1000 ^ 10 + i)%Z.
Definition show_bool (b : bool) : string := if b then "1" else "0".
(** A new GenDB and rows into it. *)
Definition run_rows (record_is_clean unique : bool) (s : pschema) (rows : list (Z * gmap string bool)) : outcome (gendb bool * rng) :=
  let* (g, r) := gendb_new 5 tally_build false record_is_clean s [] in
  foldM (fun '(g, r) '(i, vals) => gendb_incorporate wide_hash unique g i vals r) (g, r) rows.
Lemma run_rows_reach cl unique s rows g r : run_rows cl unique s rows = Ok (g, r) ->
  gendb_reach wide_hash tally_build show_bool false cl s g.
Proof.
  unfold run_rows. intros H. apply obind_Ok in H as ([g0 r0] & H0 & H).
  assert (gendb_reach wide_hash tally_build show_bool false cl s g0) as Hg by by eapply GR_new. clear H0.
  revert g0 r0 Hg H. induction rows as [|[i vals] rows IH]; intros g0 r0 Hg H; cbn [foldM] in H; [by injection H as <- <-|].
  apply obind_Ok in H as ([g1 r1] & H1 & H). eapply IH; [|exact H]. by eapply GR_row.
Qed.
Definition no_gendb : gendb bool * rng := (Gendb (PSchema ∅ (PQuery "" ∅)) ∅ ∅ (Ents ∅ ∅) hirm_empty 0, []).
Definition observation (g : gendb bool) (n : string) (l : items_t) : option bool :=
  hirm_lookup (g_hirm g) n ≫= fun a => any_data a !! l.
Lemma observation_ok g n l v : observation g n l = Some v -> observed (g_hirm g) n l v.
Proof. intros (a & Ha & Hv)%bind_Some. by exists a. Qed.
Definition reference (g : gendb bool) (c f : string) (i : Z) : option Z := en_refs (g_ents g) !! c ≫= fun m => m !! (f, i).
Lemma reference_ok g c f i x : reference g c f i = Some x -> recorded (g_ents g) c f i x.
Proof. intros (m & Hm & Hx)%bind_Some. by exists m. Qed.

(** Two rows with values for all three fields of other classes, and for two of them, in all
    four modes. *)
Definition C54_rows : list (Z * gmap string bool) :=
  [(0%Z, {[ "City" := true; "Degree" := true; "School" := false ]}); (1%Z, {[ "Degree" := false; "School" := true ]})].
Example C54_rows_met : forall record_is_clean unique, exists g r, run_rows record_is_clean unique C51_schema C54_rows = Ok (g, r) /\
  observed (g_hirm g) "City" [0; 0]%Z true /\
  observed (g_hirm g) "School" (if unique then [1; 1; 1] else [0; 0; 1])%Z true /\
  recorded (g_ents g) "Physician" "school" 0 0 /\ recorded (g_ents g) "Record" "physician" 1 (if unique then 1 else 0).
Proof.
  intros cl unique. set (gr := unwrap no_gendb (run_rows cl unique C51_schema C54_rows)). exists gr.1, gr.2. split_and!.
  - rewrite <- surjective_pairing. apply unwrap_ok. destruct cl, unique; vm_compute; reflexivity.
  - apply observation_ok. destruct cl, unique; vm_compute; reflexivity.
  - apply observation_ok. destruct cl, unique; vm_compute; reflexivity.
  - apply reference_ok. destruct cl, unique; vm_compute; reflexivity.
  - apply reference_ok. destruct cl, unique; vm_compute; reflexivity.
Qed.
Example C54_rows_hyps : well_formed C51_schema /\ record_queried_once C51_schema /\ (forall c, shallow (ps_classes C51_schema) c) /\ faithful tally_build.
Proof. destruct C51_schema_wf. split_and!; [done|done|apply C52_schema_shallow|apply tally_faithful]. Qed.

(** The property asked of new rows is more than [C54_own_entities] gives.  Although every
    value looks its items up with entities of their own, two rows can share an entity: the
    first field of a row incorporates its base, which samples the references of its class
    that are not on its path, and the second field then finds them. *)
Definition C54_schema : pschema :=
  PSchema
    {[ "School" := {[ "name" := PScalar "string" ∅ ]};
       "City" := {[ "name" := PScalar "string" ∅ ]};
       "Physician" := {[ "city" := PClassVar "City"; "school" := PClassVar "School" ]};
       "Record" := {[ "physician" := PClassVar "Physician" ]} ]}
    (PQuery "Record" {[ "City" := ["physician"; "city"; "name"]; "School" := ["physician"; "school"; "name"] ]}).
Definition C54_row : gmap string bool := {[ "City" := true; "School" := true ]}.
Theorem C54_unique_refuted : exists s g r l0 l1 x, well_formed s /\ record_queried_once s /\ (forall c, shallow (ps_classes s) c) /\
  run_rows true true s [(0%Z, C54_row); (1%Z, C54_row)] = Ok (g, r) /\
  observed (g_hirm g) "School" (x :: l0) true /\ last l0 = Some 0%Z /\
  observed (g_hirm g) "School" (x :: l1) true /\ last l1 = Some 1%Z /\
  recorded (g_ents g) "Physician" "school" 0 x /\ recorded (g_ents g) "Physician" "school" 1 x.
Proof.
  set (gr := unwrap no_gendb (run_rows true true C54_schema [(0%Z, C54_row); (1%Z, C54_row)])).
  exists C54_schema, gr.1, gr.2, [0; 0]%Z, [1; 1]%Z, 0%Z. split_and!.
  - apply is_well_formed_ok. vm_compute. reflexivity.
  - intros f f' v Hf. exfalso. apply elem_of_map_to_list in Hf. vm_compute in Hf. repeat (apply elem_of_cons in Hf as [[=]|Hf]). by apply elem_of_nil in Hf.
  - intros c. destruct (decide (c ∈ map fst (map fst (all_refs (ps_classes C54_schema))))) as [Hc|Hc].
    + apply is_shallow_ok.
      assert (forallb (is_shallow (ps_classes C54_schema)) (map fst (map fst (all_refs (ps_classes C54_schema)))) = true) as H by (vm_compute; reflexivity).
      rewrite forallb_forall in H. by apply H, elem_of_list_In.
    + intros a b d [f Hf%refers_cases]. exfalso. apply Hc. change c with (fst (fst (c, f, a))). apply elem_of_list_In, in_map, in_map, elem_of_list_In, Hf.
  - rewrite <- surjective_pairing. apply unwrap_ok. vm_compute. reflexivity.
  - apply observation_ok. vm_compute. reflexivity.
  - done.
  - apply observation_ok. vm_compute. reflexivity.
  - done.
  - apply reference_ok. vm_compute. reflexivity.
  - apply reference_ok. vm_compute. reflexivity.
Qed.
Print Assumptions C54_unique_refuted.

(** [C53_record_clean_refuted] at a row whose city is 1: the first item of its "ID", that of
    its city, is 0. *)
Example C53_record_clean_met : exists g r, run_rows true true C51_schema
    [(0%Z, {[ "City" := true; "ID" := true ]}); (1%Z, {[ "City" := true; "ID" := true ]})] = Ok (g, r) /\
  observed (g_hirm g) "ID" [0; 0; 0; 1]%Z true /\ recorded (g_ents g) "Record" "city" 1 1.
Proof.
  match goal with |- exists g r, ?x = _ /\ _ => set (gr := unwrap no_gendb x) end. exists gr.1, gr.2. split_and!.
  - rewrite <- surjective_pairing. apply unwrap_ok. vm_compute. reflexivity.
  - apply observation_ok. vm_compute. reflexivity.
  - apply reference_ok. vm_compute. reflexivity.
Qed.
(** [C54_record_noisy_refuted] applies to this schema: it has an attribute of the record
    class, and states in which other rows have been incorporated. *)
Example C54_record_noisy_met : pq_fields (ps_query C51_schema) !! "ID" = Some ["id"] /\
  is_ok (run_rows false true C51_schema C54_rows) = true.
Proof. split; [done|]. vm_compute. reflexivity. Qed.
(** [C54_row_once] at the first row of [C54_rows]. *)
Example C54_row_once_met : forall unique, exists g r, run_rows true unique C51_schema C54_rows = Ok (g, r) /\
  observed (g_hirm g) "City" [0; 0]%Z true /\ is_ok (gendb_incorporate wide_hash unique g 0 {[ "City" := true ]} r) = false /\
  is_ok (gendb_incorporate wide_hash unique g 1 {[ "City" := true ]} r) = true.
Proof.
  intros unique. set (gr := unwrap no_gendb (run_rows true unique C51_schema C54_rows)). exists gr.1, gr.2. split_and!.
  - rewrite <- surjective_pairing. apply unwrap_ok. destruct unique; vm_compute; reflexivity.
  - apply observation_ok. destruct unique; vm_compute; reflexivity.
  - destruct unique; vm_compute; reflexivity.
  - destruct unique; vm_compute; reflexivity.
Qed.

(** ** The indices of a reference *)
(** When the search succeeds it gives, for every query field and nothing else, the positions of
    the class that the recorded links use for the reference field, in increasing order; fields
    without such a position are left out. *)
Theorem C54_indices {V} : forall (g : gendb V) c f out, domain_inds g c f = Ok out -> forall n,
  (forall l, out !! n = Some l -> l <> [] /\ StronglySorted lt l) /\
  forall ind, ((exists l, out !! n = Some l /\ ind ∈ l) <->
    exists t ls m, is_Some (pq_fields (ps_query (g_schema g)) !! n) /\ h_schema (g_hirm g) !! n = Some t /\ t_domains t !! ind = Some c /\
      g_links g !! n = Some ls /\ ls !! ind = Some m /\ is_Some ((m : gmap string nat) !! f)).
Proof.
  intros g c f out H n. unfold domain_inds in H.
  assert (forall ds k acc l, foldM (fun acc ind =>
    if bool_decide (ds !! ind = Some c) then let* r := at_ (g_links g !! n) in let* m := at_ (r !! ind) in Ok (if bool_decide (f ∈ dom (m : gmap string nat)) then acc ++ [ind] else acc) else Ok acc) acc (seq k (length ds - k)) = Ok l ->
    StronglySorted lt acc -> Forall (fun i => (i < k)%nat) acc -> StronglySorted lt l /\ forall ind, ind ∈ l <-> ind ∈ acc \/ ((k <= ind)%nat /\ exists ls m, ds !! ind = Some c /\ g_links g !! n = Some ls /\ ls !! ind = Some m /\ is_Some ((m : gmap string nat) !! f))) as Hrel.
  { intros ds k. remember (length ds - k)%nat as j eqn:Ej. revert k Ej. induction j as [|j IH]; intros k Ej acc l Hf Hs Hlt; cbn [seq foldM] in Hf.
    { injection Hf as <-. split; [done|]. intros ind. split; [by left|]. intros [?|(Hk & ? & ? & Hd & _)]; [done|]. apply lookup_lt_Some in Hd. lia. }
    apply obind_Ok in Hf as (acc1 & Hst & Hf).
    assert (StronglySorted lt acc1 /\ Forall (fun i => (i < S k)%nat) acc1 /\ forall ind, ind ∈ acc1 <-> ind ∈ acc \/ (ind = k /\ exists ls m, ds !! ind = Some c /\ g_links g !! n = Some ls /\ ls !! ind = Some m /\ is_Some ((m : gmap string nat) !! f))) as (S1 & L1 & E1).
    { assert (Forall (fun i => (i < S k)%nat) acc) as Hlt'. { eapply Forall_impl; [exact Hlt|]. intros i Hi. cbn beta in *. lia. }
      case_bool_decide as Hd.
      - apply obind_Ok in Hst as (ls & Hls%at_Ok & Hst). apply obind_Ok in Hst as (m & Hm%at_Ok & [= <-]). case_bool_decide as Hfd.
        + split; [|split].
          * clear -Hs Hlt. induction acc as [|x acc IH]; [repeat constructor|]. apply StronglySorted_inv in Hs as [Hs Hx]. apply Forall_cons in Hlt as [Hx' Hlt].
            constructor; [by apply IH|]. apply Forall_app. split; [done|]. by repeat constructor.
          * apply Forall_app. split; [done|]. repeat constructor.
          * intros ind. rewrite elem_of_app, elem_of_list_singleton. split; [|intros [?|[-> _]]; [by left|by right]].
            intros [?| ->]; [by left|]. right. split; [done|]. exists ls, m. split; [done|]. split; [done|]. split; [done|]. by apply elem_of_dom.
        + split; [done|]. split; [done|]. intros ind. split; [by left|]. intros [?|(-> & ls' & m' & _ & Hls' & Hm' & Hf')]; [done|]. exfalso. apply Hfd, elem_of_dom.
          assert (ls' = ls) as -> by congruence. assert (m' = m) as -> by congruence. done.
      - injection Hst as <-. split; [done|]. split; [done|]. intros ind. split; [by left|]. intros [?|(-> & ? & ? & Hd' & _)]; done. }
    destruct (IH (S k) ltac:(lia) acc1 l Hf S1 L1) as [S2 E2]. split; [done|]. intros ind. rewrite E2, E1. split.
    - intros [[?|[-> Hx]]|[Hk Hx]]; [by left|right; split; [lia|done]|right; split; [lia|done]].
    - intros [?|[Hk Hx]]; [by left; left|]. destruct (decide (ind = k)) as [->|Hne]; [by left; right|]. right. split; [lia|done]. }
  assert (forall ns acc, NoDup ns -> foldM (fun acc n => let* t := at_ (h_schema (g_hirm g) !! n) in let* inds := inds_of_relation g c f n (t_domains t) in Ok (if bool_decide (inds = []) then acc else <[n := inds]> acc)) acc ns = Ok out ->
    (n ∉ ns -> out !! n = acc !! n) /\ (n ∈ ns -> exists t inds, h_schema (g_hirm g) !! n = Some t /\ inds_of_relation g c f n (t_domains t) = Ok inds /\ out !! n = if decide (inds = []) then acc !! n else Some inds)) as Hall.
  { clear H. induction ns as [|x ns IH]; intros acc Hnd Hf; cbn [foldM] in Hf.
    { injection Hf as <-. split; [done|]. by intros ?%elem_of_nil. }
    apply NoDup_cons in Hnd as [Hx Hnd]. apply obind_Ok in Hf as (acc1 & Hst & Hf). apply obind_Ok in Hst as (t & Ht%at_Ok & Hst). apply obind_Ok in Hst as (inds & Hinds & [= <-]).
    destruct (IH _ Hnd Hf) as [I1 I2]. split.
    - intros Hn. apply not_elem_of_cons in Hn as [Hne Hn]. rewrite I1 by done. case_bool_decide; [done|]. by rewrite lookup_insert_ne.
    - intros Hn. destruct (decide (n = x)) as [->|Hne].
      + exists t, inds. split; [done|]. split; [done|]. rewrite I1 by done. destruct (decide (inds = [])) as [E|E]; [by rewrite bool_decide_eq_true_2|]. rewrite bool_decide_eq_false_2 by done. by rewrite lookup_insert.
      + apply elem_of_cons in Hn as [?|Hn]; [done|]. destruct (I2 Hn) as (t' & i' & Ht' & Hi' & E). exists t', i'. split; [done|]. split; [done|]. rewrite E. destruct (decide (i' = [])); [|done].
        case_bool_decide; [done|]. by rewrite lookup_insert_ne. }
  destruct (Hall _ _ (NoDup_sorted_names _) H) as [H1 H2]. rewrite elem_of_sorted_names in H1, H2. rewrite lookup_empty in H1, H2.
  destruct (decide (is_Some (pq_fields (ps_query (g_schema g)) !! n))) as [Hq|Hq].
  - destruct (H2 Hq) as (t & inds & Ht & Hi & E). unfold inds_of_relation in Hi. specialize (Hrel (t_domains t) 0%nat [] inds). rewrite Nat.sub_0_r in Hrel.
    destruct (Hrel Hi (SSorted_nil _) (Forall_nil_2 _)) as [S2 E2]. split.
    + intros l Hl. rewrite Hl in E. destruct (decide (inds = [])); [done|]. injection E as ->. done.
    + intros ind. split.
      * intros (l & Hl & Hin). rewrite Hl in E. destruct (decide (inds = [])); [done|]. injection E as ->. apply E2 in Hin as [Hin|(_ & ls & m & ? & ? & ? & ?)]; [by apply elem_of_nil in Hin|].
        by exists t, ls, m.
      * intros (t' & ls & m & _ & Ht' & Hd & Hls & Hm & Hf). assert (t' = t) as -> by congruence.
        assert (ind ∈ inds) as Hin. { apply E2. right. split; [lia|]. by exists ls, m. }
        exists inds. split; [|done]. rewrite E. destruct (decide (inds = [])) as [->|]; [by apply elem_of_nil in Hin|done].
  - specialize (H1 Hq). split; [congruence|]. intros ind. split; [intros (l & Hl & _); congruence|]. by intros (? & ? & ? & ? & _).
Qed.
Print Assumptions C54_indices.

(** The search for the positions of a reference field fails in any state with a clean record
    class and a field that names one of its attributes. *)
Theorem C54_indices_refuted {V} : forall rid (build : hdecl -> t_rel V) show only_final s g q u f,
  well_formed s -> record_queried_once s -> (forall c, shallow (ps_classes s) c) -> faithful build ->
  gendb_reach rid build show only_final true s g -> pq_fields (ps_query s) !! q = Some [u] ->
  (exists k, references (ps_classes s) (pq_record (ps_query s)) k) ->
  forall out, domain_inds g (pq_record (ps_query s)) f <> Ok out.
Proof.
  intros rid build show of s g q u f WF Ho Hsh Hf Hg Hq Hk out H.
  destruct (reach_inv rid build show of true s WF (fun _ => Ho) Hsh Hf g Hg) as (fuel & dm & refs & m & Hdm & Hrefs & Hm & Hi & _).
  destruct (C52_record_clean_refuted of s fuel dm refs m q u WF Ho Hdm Hrefs Hm Hq Hk) as (Hno & d & Hd & _).
  unfold domain_inds in H. rewrite (gi_schema _ _ _ _ _ g Hi) in H. revert H.
  assert (q ∈ sorted_names (pq_fields (ps_query s))) as Hin by (apply elem_of_sorted_names; eauto).
  generalize (∅ : gmap string (list nat)). revert Hin. generalize (sorted_names (pq_fields (ps_query s))). intros qs Hin.
  induction qs as [|n qs IH]; intros acc H; [by apply elem_of_nil in Hin|]. cbn [foldM] in H. apply obind_Ok in H as (acc1 & Hst & H).
  destruct (decide (n = q)) as [->|Hne]; [|apply elem_of_cons in Hin as [?|Hin]; [congruence|by eapply IH]].
  apply obind_Ok in Hst as (t & Ht%at_Ok & Hst). apply obind_Ok in Hst as (inds & Hinds & _).
  destruct (declared rid build s m _ g _ _ Hi Ht) as (d' & Hd' & ->). assert (d' = d) as -> by congruence. rewrite (proj1 (Hf d)) in Hinds.
  destruct (computed_facts s fuel dm refs (wf_closed s WF) Hdm Hrefs) as (_ & _ & Hend & _).
  assert (decl_domains d.2 = doms dm (pq_record (ps_query s))) as Ed.
  { pose proof (made_cases of true s fuel dm refs m WF (fun _ => Ho) Hdm Hrefs Hm q d Hd) as Hmo.
    destruct Hmo as [c v j ps sp Ha Hn|v sp _ _|v es Hc|fs ks z v es Hof [Hq' _] Hfs|f' f1 v0 f2 k1 k k2 z v j ps es o Hof [Hq' _] Hl Ha Hn].
    - exfalso. eapply (field_name_not_attr s WF q q); [|exact Ha|by left|exact Hn]. apply (wf_fields s WF). by exists [u].
    - done.
    - done.
    - rewrite Hq in Hq'. injection Hq' as Hq'. destruct fs as [|a [|b fs]]; done.
    - exfalso. destruct k1 as [|k0 k1].
      + subst f'. rewrite Hq in Hq'. injection Hq' as Hq'. apply (f_equal length) in Hq'. rewrite !app_length in Hq'. simpl in Hq'. lia.
      + eapply (lower_not_field k f' q); [|symmetry; exact Hn]. apply (wf_fields s WF). by exists [u]. }
  rewrite Ed in Hinds. destruct (Hend (pq_record (ps_query s))) as [ds Hds]; [apply (wf_record s WF)|]. rewrite Hds in Hinds.
  unfold inds_of_relation in Hinds. rewrite app_length, seq_app, foldM_app in Hinds. apply obind_Ok in Hinds as (acc2 & _ & Hinds).
  cbn [length seq foldM] in Hinds. rewrite Nat.add_0_l, list_lookup_middle in Hinds by done. rewrite bool_decide_true in Hinds by done.
  rewrite (gi_links _ _ _ _ _ g Hi), Hno in Hinds. done.
Qed.
Print Assumptions C54_indices_refuted.
Example C54_indices_met : (let* (g, _) := run_rows false true C51_schema C54_rows in domain_inds g "Physician" "school") =
  Ok {[ "Degree" := [1%nat]; "ID" := [2%nat]; "School" := [1%nat] ]}.
Proof. by_compute. Qed.
