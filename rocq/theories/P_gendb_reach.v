(** Invariants of the states of a GenDB. *)
From Coq Require Import String Ascii.
From stdpp Require Import gmap strings list sorting relations.
From Coq Require Import ZArith Reals Lia.
From Verif Require Import M_base M_crp M_domain M_dist M_relation M_noisy M_irm M_hirm M_schema M_pclean_io M_gendb M_gendb_rels M_gendb_state M_pclean
  S_crp S_crp_state S_irm S_hirm S_gendb S_gendb_rels S_gendb_state P_base P_crp P_hirm_move P_gendb P_gendb_links P_gendb_rels T_gendb_rels P_gendb_ents P_gendb_fill
  P_gendb_data P_gendb_blank P_gendb_vec.
Local Open Scope nat_scope.

Definition t_with {V} (t : t_rel V) (o : bool) : t_rel V :=
  match t with TClean ds _ D sp => TClean ds o D sp | TNoisy ds _ E sp b => TNoisy ds o E sp b end.
Lemma any_type_with {V} (a : any_rel V) o : any_type a o = t_with (any_type a true) o.
Proof. by destruct a. Qed.
Lemma t_with_observed {V} (t : t_rel V) : t_with t (t_observed t) = t.
Proof. by destruct t. Qed.

(** ** Invariants, for any property [Q] of item vectors that the steps respect *)
Section Invariant.
Context {V : Type}.
Variables (rid : hash_fn) (build : hdecl -> t_rel V) (s : pschema) (m : made) (Q : ents -> string -> items_t -> Prop).
Notation cs := (ps_classes s).
Hypotheses
  (Hpaths : forall q path, pq_fields (ps_query s) !! q = Some path -> exists fs v, path = fs ++ [v])
  (Hsound : forall n d, md_rels m !! n = Some d -> links_sound cs (decl_domains d.2) (default ∅ (md_refs m !! n)))
  (Hbuild : forall d, t_domains (build d) = decl_domains d.2 /\ t_base (build d) = match d.2 with Clean _ _ => None | NoisyOf _ _ b => Some b end)
  (HQgrow : forall e e' n l, ents_grow e e' -> Q e n l -> Q e' n l)
  (HQbase : forall e n l o ds es b db, md_rels m !! n = Some (o, NoisyOf ds es b) -> md_rels m !! b = Some db ->
     Q e n l -> Q e b (take (length (decl_domains db.2)) l))
  (HQuniq : forall e n d i e' l, md_rels m !! n = Some d ->
     unique_items_for rid e (decl_domains d.2) (default ∅ (md_refs m !! n)) i = Ok (e', l) -> Q e' n l)
  (HQpath : forall e q fs v i l, pq_fields (ps_query s) !! q = Some (fs ++ [v]) -> path_vector cs e (pq_record (ps_query s)) fs i l -> Q e q l).

Record ginv (g : gendb V) : Prop := {
  gi_schema : g_schema g = s;
  gi_links : g_links g = md_refs m;
  gi_hschema : h_schema (g_hirm g) ⊆ build <$> md_rels m;
  gi_agree : ents_agree rid cs (g_ents g);
  gi_shaped : shaped (g_hirm g);
  gi_coded : coded (g_hirm g);
  gi_data : forall n l v, observed (g_hirm g) n l v -> Q (g_ents g) n l;
}.
Record gstep (g g' : gendb V) : Prop := {
  gs_hschema : h_schema (g_hirm g') = h_schema (g_hirm g);
  gs_rels : g_rels g' = g_rels g;
  gs_grow : ents_grow (g_ents g) (g_ents g');
  gs_data : forall n l v, observed (g_hirm g) n l v -> observed (g_hirm g') n l v;
}.
Lemma gstep_refl g : gstep g g.
Proof. split; auto. apply ents_grow_refl. Qed.
Lemma gstep_trans g1 g2 g3 : gstep g1 g2 -> gstep g2 g3 -> gstep g1 g3.
Proof. intros [A1 A2 A3 A4] [B1 B2 B3 B4]. split; [congruence|congruence|by eapply ents_grow_trans|auto]. Qed.

(** A step of the entities alone. *)
Lemma set_ents g e : ginv g -> step_ok rid cs (g_ents g) e -> ginv (g_set g e (g_hirm g)) /\ gstep g (g_set g e (g_hirm g)).
Proof.
  intros [I1 I2 I3 I4 I5 IC I6] [S1 S2]. split; [split; cbn; auto|split; cbn; auto].
  intros n l v Hv. eapply HQgrow; [exact S2|]. by eapply I6.
Qed.
Lemma set_hirm g h : ginv g -> h_schema h = h_schema (g_hirm g) -> shaped h -> coded h -> (forall n l v, observed (g_hirm g) n l v -> observed h n l v) ->
  (forall n l v, observed h n l v -> observed (g_hirm g) n l v \/ Q (g_ents g) n l) ->
  ginv (g_set g (g_ents g) h) /\ gstep g (g_set g (g_ents g) h).
Proof.
  intros [I1 I2 I3 I4 I5 IC I6] H1 H2 HC H3 H4. split; [split; cbn; auto; [by rewrite H1|]|split; cbn; auto; apply ents_grow_refl].
  intros n l v [Hv|Hv]%H4; [by eapply I6|done].
Qed.
Lemma declared g n t : ginv g -> h_schema (g_hirm g) !! n = Some t -> exists d, md_rels m !! n = Some d /\ t = build d.
Proof.
  intros Hg Ht. eapply lookup_weaken in Ht; [|apply (gi_hschema g Hg)]. rewrite lookup_fmap in Ht. apply fmap_Some in Ht as (d & Hd & ->). eauto.
Qed.
Lemma sample_ok g fuel n items r v h r' : ginv g -> hirm_sample_relation fuel (g_hirm g) n items r = Ok (v, h, r') -> Q (g_ents g) n items ->
  ginv (g_set g (g_ents g) h) /\ gstep g (g_set g (g_ents g) h) /\ observed h n items v.
Proof.
  intros Hg Hs HQ. destruct (sample_relation_data fuel (Q (g_ents g)) _ _ _ _ _ _ _ Hs (gi_shaped g Hg)) as (A1 & A2 & A3 & A4 & A5 & A6); [|done|].
  - intros n0 l t b Hn Ht Hb tb Htb Hlen. destruct (declared g _ _ Hg Ht) as (d & Hd & ->). destruct (declared g _ _ Hg Htb) as (db & Hdb & ->).
    destruct (Hbuild db) as [-> _]. destruct (Hbuild d) as [_ E]. rewrite E in Hb. destruct d as [o [ds sp|ds es b']]; cbn in Hb; [done|]. injection Hb as ->.
    by eapply HQbase.
  - destruct (set_hirm g h Hg A1 A2 (A6 (gi_coded g Hg)) A3 A5) as [? ?]. done.
Qed.

Lemma links_of_eq g n : ginv g -> links_of g n = default ∅ (md_refs m !! n).
Proof. intros Hg. unfold links_of. by rewrite (gi_links g Hg). Qed.

Lemma for_class_step_ok rec c i g r n g1 r1 :
  (forall g c i r g' r', ginv g -> rec g c i r = Ok (g', r') -> ginv g' /\ gstep g g') ->
  ginv g -> for_class_step rec rid c i (g, r) n = Ok (g1, r1) -> ginv g1 /\ gstep g g1.
Proof.
  intros IH Hg Hstep. unfold for_class_step in Hstep. apply obind_Ok in Hstep as ([[l e] r2] & Hanc & Hstep). rewrite (gi_schema g Hg) in Hanc.
  apply class_ancestors_ok in Hanc as [Hse _]. destruct (set_ents g e Hg Hse) as [Hg2 Hs2].
  set (g2 := g_set g e (g_hirm g)) in *. apply obind_Ok in Hstep as (t & Ht%at_Ok & Hstep). apply obind_Ok in Hstep as (items & Hit & Hstep).
  destruct (declared g2 _ _ Hg2 Ht) as (d & Hd & ->). rewrite (links_of_eq g2 n Hg2), (proj1 (Hbuild d)) in Hit.
  change e with (g_ents g2) in Hit.
  assert (Q (g_ents g2) n items) as HQ.
  { eapply HQuniq; [exact Hd|]. by apply (items_for_unique rid). }
  apply obind_Ok in Hstep as ([g3 r3] & Hrec & Hstep).
  assert (ginv g3 /\ gstep g2 g3) as [Hg3 Hs3].
  { destruct (build d) as [|ds o E sp base]; [injection Hrec as <- <-; split; [done|apply gstep_refl]|].
    apply obind_Ok in Hrec as (bi & _ & Hrec). apply obind_Ok in Hrec as (tb & _ & Hrec). apply obind_Ok in Hrec as (c' & _ & Hrec).
    apply obind_Ok in Hrec as (i' & _ & Hrec). by eapply IH. }
  apply obind_Ok in Hstep as (a & _ & Hstep). case_bool_decide.
  - injection Hstep as <- <-. split; [done|by eapply gstep_trans].
  - apply obind_Ok in Hstep as ([[v h] r4] & Hsm & Hstep). injection Hstep as <- <-.
    destruct (sample_ok g3 _ _ _ _ _ _ _ Hg3 Hsm) as (? & ? & _).
    + eapply HQgrow; [apply (gs_grow _ _ Hs3)|done].
    + split; [done|]. eapply gstep_trans; [exact Hs2|]. by eapply gstep_trans.
Qed.
Lemma for_class_ok fuel : forall g c i r g' r', ginv g -> for_class fuel rid g c i r = Ok (g', r') -> ginv g' /\ gstep g g'.
Proof.
  induction fuel as [|fuel IH]; intros g c i r g' r' Hg H; cbn [for_class] in H; [done|].
  apply obind_Ok in H as (ns & _ & H). revert g r Hg H. induction ns as [|n ns IHn]; intros g r Hg H; cbn [foldM] in H.
  { injection H as <- <-. split; [done|apply gstep_refl]. }
  apply obind_Ok in H as ([g1 r1] & Hstep & H).
  destruct (for_class_step_ok _ _ _ _ _ _ _ _ IH Hg Hstep) as [Hg1 Hs1]. destruct (IHn _ _ Hg1 H) as [? ?]. split; [done|by eapply gstep_trans].
Qed.
Lemma incorporate_query_ok g q items v r g' r' : ginv g -> Q (g_ents g) q items -> incorporate_query rid g q items v r = Ok (g', r') ->
  ginv g' /\ gstep g g' /\ observed (g_hirm g') q items v /\ forall w, ~ observed (g_hirm g) q items w.
Proof.
  intros Hg HQ H. unfold incorporate_query in H. apply obind_Ok in H as (t & _ & H). apply obind_Ok in H as ([g1 r1] & Hf & H).
  assert (ginv g1 /\ gstep g g1) as [Hg1 Hs1].
  { destruct t as [|ds o E sp base]; [injection Hf as <- <-; split; [done|apply gstep_refl]|].
    apply obind_Ok in Hf as (bi & _ & Hf). apply obind_Ok in Hf as (tb & _ & Hf). apply obind_Ok in Hf as (c' & _ & Hf).
    apply obind_Ok in Hf as (i' & _ & Hf). by eapply for_class_ok. }
  apply obind_Ok in H as ([h r2] & Hi & H). injection H as <- <-. apply hirm_incorporate_stored in Hi.
  pose proof (stored_observed _ _ _ _ _ Hi (gi_shaped g1 Hg1)) as Ho.
  destruct (set_hirm g1 h Hg1) as [Hg2 Hs2].
  - apply (st_schema _ _ _ _ _ Hi).
  - eapply stored_shaped; [exact Hi|apply (gi_shaped g1 Hg1)].
  - eapply stored_coded; [exact Hi|apply (gi_coded g1 Hg1)].
  - intros n l w Hw. apply Ho. by left.
  - intros n l w [Hw|[= -> -> ->]]%Ho; [by left|right]. eapply HQgrow; [apply (gs_grow _ _ Hs1)|done].
  - split; [done|]. split; [by eapply gstep_trans|]. split; [cbn; apply Ho; by right|].
    intros w Hw. apply Hs1 in Hw as (a & Ha & Hl). destruct (st_this _ _ _ _ _ Hi) as (a1 & a2 & Ha1 & _ & Hm).
    assert (a1 = a) as -> by congruence. destruct (gi_shaped g1 Hg1 q a Ha) as (t' & _ & _ & Hco & _). destruct (om_coherent _ _ _ _ Hm Hco). congruence.
Qed.
Lemma query_items_ok unique g q i r items g' r' : ginv g -> query_items rid unique g q i r = Ok (items, g', r') ->
  ginv g' /\ gstep g g' /\ Q (g_ents g') q items.
Proof.
  intros Hg H. unfold query_items in H. rewrite (gi_schema g Hg) in H. apply obind_Ok in H as (path & Hp%at_Ok & H). destruct unique.
  - apply obind_Ok in H as (t & Ht%at_Ok & H). apply obind_Ok in H as ([e l] & Hu & H). injection H as <- <- <-.
    destruct (declared g _ _ Hg Ht) as (d & Hd & ->). rewrite (links_of_eq g q Hg), (proj1 (Hbuild d)) in Hu.
    destruct (set_ents g e Hg) as [? ?].
    + eapply unique_items_step; [|exact Hu]. by apply Hsound.
    + split; [done|]. split; [done|]. cbn. by eapply HQuniq.
  - apply obind_Ok in H as ([[l e] r1] & Hu & H). injection H as <- <- <-. destruct (Hpaths q path Hp) as (fs & v & ->).
    apply path_entities_ok in Hu as [Hs Hv]. destruct (set_ents g e Hg Hs) as [? ?]. split; [done|]. split; [done|]. cbn. by eapply HQpath.
Qed.
(** Every value of a row is stored, at items of [Q]. *)
Lemma gendb_incorporate_ok unique g i vals r g' r' : ginv g -> gendb_incorporate rid unique g i vals r = Ok (g', r') ->
  ginv g' /\ gstep g g' /\ forall q v, vals !! q = Some v -> exists l g1 r1 g2 r2, ginv g1 /\ gstep g g1 /\ gstep g2 g' /\
    query_items rid unique g1 q i r1 = Ok (l, g2, r2) /\ observed (g_hirm g') q l v /\ (forall w, ~ observed (g_hirm g) q l w).
Proof.
  intros Hg H. unfold gendb_incorporate in H.
  assert (forall qs g r g' r', ginv g -> foldM (incorporate_step rid unique i vals) (g, r) qs = Ok (g', r') ->
    ginv g' /\ gstep g g' /\ forall q, q ∈ qs -> exists v l g1 r1 g2 r2, vals !! q = Some v /\ ginv g1 /\ gstep g g1 /\ gstep g2 g' /\
    query_items rid unique g1 q i r1 = Ok (l, g2, r2) /\ observed (g_hirm g') q l v /\ (forall w, ~ observed (g_hirm g) q l w)) as Hl.
  { clear -Hpaths Hsound Hbuild HQgrow HQbase HQuniq HQpath. intros qs. induction qs as [|q qs IH]; intros g r g' r' Hg H; cbn [foldM] in H.
    - injection H as <- <-. split; [done|]. split; [apply gstep_refl|]. intros q Hq. by apply elem_of_nil in Hq.
    - apply obind_Ok in H as ([g1 r1] & Hst & H). unfold incorporate_step in Hst. apply obind_Ok in Hst as (v & Hv%at_Ok & Hst).
      apply obind_Ok in Hst as ([[l g2] r2] & Hq & Hst). destruct (query_items_ok _ _ _ _ _ _ _ _ Hg Hq) as (Hg2 & Hs2 & HQ).
      destruct (incorporate_query_ok _ _ _ _ _ _ _ Hg2 HQ Hst) as (Hg1 & Hs1 & Ho & Hno).
      destruct (IH _ _ _ _ Hg1 H) as (Hg' & Hs' & Hall). split; [done|].
      assert (gstep g g1) as Hs01 by by eapply gstep_trans. split; [by eapply gstep_trans|].
      intros q' [->|Hq']%elem_of_cons.
      + exists v, l, g, r, g2, r2. split_and!; [done|done|apply gstep_refl|by eapply gstep_trans|done|by apply Hs'|].
        intros w Hw. apply Hs2 in Hw. by eapply Hno.
      + destruct (Hall q' Hq') as (v' & l' & g3 & r3 & g4 & r4 & ? & ? & ? & ? & ? & ? & Hno'). exists v', l', g3, r3, g4, r4.
        split_and!; [done|done|by eapply gstep_trans|done|done|done|]. intros w Hw. apply Hs01 in Hw. by eapply Hno'. }
  destruct (Hl _ _ _ _ _ Hg H) as (A1 & A2 & A3). split; [done|]. split; [done|]. intros q v Hv.
  destruct (A3 q) as (v' & l & g1 & r1 & g2 & r2 & Hv' & ? & ? & ? & ? & ? & ?).
  - apply elem_of_sorted_names. eauto.
  - assert (v' = v) as -> by congruence. exists l, g1, r1, g2, r2. done.
Qed.
Lemma pclean_sample_ok show g i r vals g' r' : ginv g -> pclean_sample show rid g i r = Ok (vals, g', r') ->
  ginv g' /\ gstep g g' /\ dom vals = dom (pq_fields (ps_query s)) /\
  forall q x, vals !! q = Some x -> exists l v, x = show v /\ observed (g_hirm g') q l v /\ Q (g_ents g') q l /\
    exists fs u, pq_fields (ps_query s) !! q = Some (fs ++ [u]) /\ path_vector cs (g_ents g') (pq_record (ps_query s)) fs i l.
Proof.
  intros Hg H. unfold pclean_sample in H. rewrite (gi_schema g Hg) in H.
  assert (forall qs (out : gmap string string) g r vals g' r', ginv g -> foldM (sample_field show rid i) (out, g, r) qs = Ok (vals, g', r') ->
    ginv g' /\ gstep g g' /\ (forall q, vals !! q <> None <-> out !! q <> None \/ q ∈ qs) /\
    forall q x, vals !! q = Some x -> out !! q = Some x \/ exists l v, x = show v /\ observed (g_hirm g') q l v /\ Q (g_ents g') q l /\
      exists fs u, pq_fields (ps_query s) !! q = Some (fs ++ [u]) /\ path_vector cs (g_ents g') (pq_record (ps_query s)) fs i l) as Hl.
  { clear -Hpaths Hsound Hbuild HQgrow HQbase HQuniq HQpath. intros qs. induction qs as [|q qs IH]; intros out g r vals g' r' Hg H; cbn [foldM] in H.
    - injection H as <- <- <-. split; [done|]. split; [apply gstep_refl|]. split; [|by left]. intros q. rewrite elem_of_nil. tauto.
    - apply obind_Ok in H as ([[o1 g1] r1] & Hst & H). unfold sample_field in Hst. rewrite (gi_schema g Hg) in Hst.
      apply obind_Ok in Hst as (path & Hp%at_Ok & Hst). destruct (Hpaths q path Hp) as (fs & u & ->).
      apply obind_Ok in Hst as ([[l e] r2] & Hpe & Hst). apply path_entities_ok in Hpe as [Hse Hv].
      apply obind_Ok in Hst as ([[v h] r3] & Hsm & Hst). injection Hst as <- <- <-.
      destruct (set_ents g e Hg Hse) as [Hg2 Hs2]. assert (Q e q l) as HQ by by eapply HQpath.
      destruct (sample_ok (g_set g e (g_hirm g)) _ _ _ _ _ _ _ Hg2 Hsm HQ) as (Hg1 & Hs1 & Ho).
      change (g_set (g_set g e (g_hirm g)) (g_ents (g_set g e (g_hirm g))) h) with (g_set g e h) in Hg1, Hs1.
      destruct (IH _ _ _ _ _ _ Hg1 H) as (Hg' & Hs' & Hdom & Hall). split; [done|].
      split; [eapply gstep_trans; [exact Hs2|]; by eapply gstep_trans|]. split.
      + intros q'. rewrite Hdom, elem_of_cons. destruct (decide (q' = q)) as [->|Hne]; [rewrite lookup_insert|rewrite lookup_insert_ne by done]; naive_solver.
      + intros q' x Hx. apply Hall in Hx as [Hx|?]; [|by right]. apply lookup_insert_Some in Hx as [[-> <-]|[_ Hx]]; [|by left].
        right. exists l, v. split_and!; [done|by apply Hs'|eapply HQgrow; [apply (gs_grow _ _ Hs')|done]|].
        exists fs, u. split; [done|]. eapply path_vector_grow; [apply (gs_grow _ _ Hs')|done]. }
  destruct (Hl _ _ _ _ _ _ _ Hg H) as (A1 & A2 & A3 & A4). split; [done|]. split; [done|]. split.
  - apply set_eq. intros q. rewrite !elem_of_dom. specialize (A3 q). rewrite lookup_empty, elem_of_sorted_names in A3.
    rewrite <- not_eq_None_Some. rewrite A3. naive_solver.
  - intros q x Hx. apply A4 in Hx as [Hx|Hx]; [by rewrite lookup_empty in Hx|done].
Qed.
Lemma infer_ok g h' : ginv g -> same_tuples (g_hirm g) h' -> ginv (g_set g (g_ents g) h').
Proof.
  intros Hg (H1 & H0 & H2). pose proof Hg as [I1 I2 I3 I4 Hsh [C1 C2] I6]. split; cbn; [done|done|by rewrite H1|done| | |].
  - intros n a' Ha'. specialize (H2 n). rewrite Ha' in H2. destruct (hirm_lookup (g_hirm g) n) as [a|] eqn:Ha; [|done].
    destruct H2 as (_ & Et & Hc & Hx). destruct (Hsh n a Ha) as (t & Ht & E & Hca & Hia). exists t. rewrite H1. split_and!; [done| |by apply Hc|by apply Hx].
    by rewrite any_type_with, Et, <- any_type_with.
  - unfold coded. rewrite H0. split; [done|]. intros n Hn. apply C2 in Hn as [a Ha]. specialize (H2 n). rewrite Ha in H2.
    destruct (hirm_lookup h' n); [eauto|done].
  - intros n l v (a' & Ha' & Hl). specialize (H2 n). rewrite Ha' in H2. destruct (hirm_lookup (g_hirm g) n) as [a|] eqn:Ha; [|done].
    destruct H2 as (Ed & _). assert (is_Some (any_data a !! l)) as [w Hw] by (apply elem_of_dom; rewrite <- Ed; apply elem_of_dom; eauto).
    apply (I6 n l w). by exists a.
Qed.
End Invariant.
