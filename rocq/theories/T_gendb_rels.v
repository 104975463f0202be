(** C51 and C52: the HIRM schema that is made of a PClean schema, and the reference links of
    its relations. *)
From Coq Require Import String Ascii.
From stdpp Require Import gmap strings list sorting relations.
From Coq Require Import Lia.
From Verif Require Import M_base M_irm M_hirm M_text M_schema M_pclean_io M_gendb M_gendb_rels S_relation S_irm S_hirm
  S_gendb S_gendb_rels P_base P_gendb P_gendb_links P_gendb_rels P_tally T_gendb_schema T_hirm.
Local Open Scope nat_scope.

(** The query fields of the schema. *)
Definition queried (s : pschema) (f : string) : Prop := is_Some (pq_fields (ps_query s) !! f).

Lemma computed_facts s fuel dm refs : closed_schema (ps_classes s) ->
  compute_domains fuel (ps_classes s) = Ok dm -> compute_refs fuel (ps_classes s) dm = Ok refs ->
  (forall c, ~ tc (references (ps_classes s)) c c) /\
  (forall c r i, refs !! c = Some r -> is_Some (r !! i) -> i < length (doms dm c)) /\
  (forall c, is_Some (ps_classes s !! c) -> exists ds, doms dm c = ds ++ [c]) /\
  (forall c, is_Some (ps_classes s !! c) -> links_right (ps_classes s) (doms dm c) (default ∅ (refs !! c))) /\
  (forall c, is_Some (ps_classes s !! c) -> shallow (ps_classes s) c -> links_exact (ps_classes s) (doms dm c) (default ∅ (refs !! c))).
Proof.
  intros Hclo Hdm Hrefs. pose proof (compute_domains_sound _ _ _ Hdm) as [Hi Hd].
  assert (forall c, ~ tc (references (ps_classes s)) c c) as Hac.
  { intros c Hc. assert (is_Some (ps_classes s !! c)) as Hs.
    { inversion Hc as [? ? (f & cl & H & _)|? ? ? (f & cl & H & _)]; subst; eauto. }
    apply Hd in Hs as [ds Hds]. apply Hi in Hds. eapply acc_acyclic; [by eapply (proj1 (domain_list_acc _))|done]. }
  split; [done|].
  assert (forall c, is_Some (ps_classes s !! c) -> exists ds, dm !! c = Some (ds ++ [c])) as Hend.
  { intros c Hc. apply Hd in Hc as [ds Hds]. pose proof (Hi _ _ Hds) as Hl. inversion Hl; subst. eauto. }
  assert (forall c, is_Some (ps_classes s !! c) -> links_right (ps_classes s) (doms dm c) (default ∅ (refs !! c)) /\
    (shallow (ps_classes s) c -> links_exact (ps_classes s) (doms dm c) (default ∅ (refs !! c)))) as HL.
  { intros c Hc. destruct (Hend c Hc) as [ds Hds]. unfold doms. rewrite Hds. cbn [default from_option].
    by apply (C39_links_exact _ fuel dm refs Hclo Hdm Hrefs c). }
  split_and!.
  - intros c r i Hr Hx. assert (is_Some (ps_classes s !! c)) as Hc.
    { destruct (ps_classes s !! c) eqn:E; [done|].
      pose proof (compute_refs_sound _ dm Hi (fun c => proj2 (Hd c)) _ _ Hclo Hrefs) as [Hlinks _].
      destruct (Hlinks c r Hr) as (ds & Hds & _). exfalso. assert (is_Some (ps_classes s !! c)) as [? ?]; [|congruence]. apply Hd. eauto. }
    destruct (HL c Hc) as [HR _]. rewrite Hr in HR. cbn [default from_option] in HR.
    destruct (lr_nothing_else _ _ _ HR i Hx) as (k & f & k' & Hk & _). by apply lookup_lt_Some in Hk.
  - intros c Hc. destruct (Hend c Hc) as [ds Hds]. unfold doms. rewrite Hds. eauto.
  - intros c Hc. by apply HL.
  - intros c Hc. by apply HL.
Qed.

(** * C51 *)
(** A well-formed schema is translated, and the HIRM schema contains exactly the relations
    described by [relation_of]. *)
Theorem C51_relations : forall only_final record_is_clean s fuel dm refs,
  well_formed s -> (record_is_clean = true -> record_queried_once s) ->
  compute_domains fuel (ps_classes s) = Ok dm -> compute_refs fuel (ps_classes s) dm = Ok refs ->
  exists m, make_hirm_schema only_final record_is_clean s dm refs = Ok m /\
    forall n d, md_rels m !! n = Some d <-> relation_of only_final record_is_clean s dm (queried s) n d.
Proof.
  intros of cl s fuel dm refs WF Honce Hdm Hrefs.
  destruct (computed_facts s fuel dm refs (wf_closed s WF) Hdm Hrefs) as (Hac & Hsm & _).
  destruct (make_hirm_schema_Ok of cl s dm refs WF Hac Hsm Honce) as (m & E & [H1 _]).
  exists m. split; [done|]. intros n d. rewrite H1. symmetry. apply relation_of_split.
Qed.
Print Assumptions C51_relations.

Lemma not_record s fuel dm refs f fs ks z v : well_formed s ->
  compute_domains fuel (ps_classes s) = Ok dm -> compute_refs fuel (ps_classes s) dm = Ok refs ->
  queries s f fs ks z v -> fs <> [] -> z <> pq_record (ps_query s).
Proof.
  intros WF Hdm Hrefs [_ Hp] Hfs ->. destruct (computed_facts s fuel dm refs (wf_closed s WF) Hdm Hrefs) as (Hac & _).
  inversion Hp as [|? ? k ? ? ? Hr Hp']; subst; [done|]. apply (Hac (pq_record (ps_query s))).
  eapply tc_rtc_r; [apply tc_once; by exists f0|]. eapply path_goes_reach; [exact Hp'|]. set_solver.
Qed.

Section Facts.
Variables (only_final record_is_clean : bool) (s : pschema) (fuel : nat) (dm : gmap string (list string)) (refs : gmap string links) (m : made).
Hypotheses (WF : well_formed s) (Honce : record_is_clean = true -> record_queried_once s)
  (Hdm : compute_domains fuel (ps_classes s) = Ok dm) (Hrefs : compute_refs fuel (ps_classes s) dm = Ok refs)
  (Hm : make_hirm_schema only_final record_is_clean s dm refs = Ok m).
Notation rel := (relation_of only_final record_is_clean s dm (queried s)).

Lemma made_rels n d : md_rels m !! n = Some d <-> rel n d.
Proof.
  destruct (C51_relations only_final record_is_clean s fuel dm refs WF Honce Hdm Hrefs) as (m' & E & H).
  rewrite Hm in E. injection E as ->. apply H.
Qed.
(** What a base is. *)
Lemma base_of_rel n o ds es b : rel n (o, NoisyOf ds es b) ->
  (exists db, rel b db /\ (exists ext, ds = decl_domains db.2 ++ ext) /\
     match db.2 with Clean _ sp => ds_type sp | NoisyOf _ es' _ => es_type es' end = es_type es).
Proof.
  intros H. remember (o, NoisyOf ds es b) as d0 eqn:E.
  destruct H as [| |f v j ps d e t HD Hc Hf Ha Hj|f fs ks z v j ps d e t HD Hof Hq Hfs Ha Hj|f fs k1 k k2 z v j ps d e t HD Hof Hq Ha Hj];
    [discriminate|discriminate|..]; injection E as <- <- <- <-.
  - exists (false, Clean (doms dm (pq_record (ps_query s))) (DistSpec d t ps)). split_and!; [|exists []; by rewrite app_nil_r|done].
    eapply R_attribute; [done|done|]. intros [? _]. congruence.
  - exists (false, Clean (doms dm z) (DistSpec d t ps)). split_and!; [|by eexists|done].
    eapply R_attribute; [done|done|]. intros (_ & Hz & _). by eapply (not_record s fuel dm refs).
  - assert (fs <> []) as Hfs. { intros ->. destruct Hq as [_ Hp]. inversion Hp. by destruct k1. }
    destruct k2 as [|k' k2].
    + exists (false, Clean (doms dm z) (DistSpec d t ps)). split_and!; [|by eexists|done].
      eapply R_attribute; [done|done|]. intros (_ & Hz & _). by eapply (not_record s fuel dm refs).
    + exists (false, NoisyOf (doms dm z ++ reverse k2 ++ [k']) (EmisSpec e t ps)
        (match k2 with [] => (z +:+ ":" +:+ v)%string | k' :: _ => (k' +:+ "::" +:+ f)%string end)). split_and!; [| |done].
      * pose proof (R_chain only_final record_is_clean s dm (queried s) f fs (k1 ++ [k]) k' k2 z v j ps d e t HD Hof) as HR.
        rewrite <- app_assoc in HR. specialize (HR Hq Ha Hj). by destruct k1.
      * exists [k]. cbn [decl_domains snd]. rewrite reverse_cons. by rewrite <- !app_assoc.
Qed.
Lemma rel_domains n d : rel n d -> decl_domains d.2 <> [].
Proof.
  destruct (computed_facts s fuel dm refs (wf_closed s WF) Hdm Hrefs) as (_ & _ & Hend & _).
  assert (forall c v j ps, attribute (ps_classes s) c v j ps -> doms dm c <> []) as Hne.
  { intros c v j ps (cl & Hc & _). destruct (Hend c) as [ds ->]; [eauto|]. by destruct ds. }
  intros H. destruct H; cbn [decl_domains snd]; try by eapply Hne.
  - assert (doms dm z <> []) by by eapply Hne. by destruct (doms dm z).
  - assert (doms dm z <> []) by by eapply Hne. by destruct (doms dm z).
Qed.
End Facts.

(** The observed relations are exactly the query fields. *)
Theorem C51_observed : forall only_final record_is_clean s fuel dm refs m,
  well_formed s -> (record_is_clean = true -> record_queried_once s) ->
  compute_domains fuel (ps_classes s) = Ok dm -> compute_refs fuel (ps_classes s) dm = Ok refs ->
  make_hirm_schema only_final record_is_clean s dm refs = Ok m ->
  forall n, (exists d, md_rels m !! n = Some (true, d)) <-> queried s n.
Proof.
  intros of cl s fuel dm refs m WF Honce Hdm Hrefs Hm n. split.
  - intros [d Hd]. eapply made_rels in Hd; try done. inversion Hd; subst; try done. by destruct k1.
  - intros Hq. pose proof Hq as [path Hp]. destruct (wf_paths s WF n path Hp) as (fs & ks & z & v & j & ps & Hqs & Ha).
    destruct (wf_joints s WF z v j ps Ha) as [[[d e] t] Hj]. pose proof Hqs as [Hq1 Hq2].
    destruct fs as [|f1 fs].
    + inversion Hq2; subst. destruct cl eqn:Hcl.
      * eexists. eapply made_rels; try done. by eapply R_record_clean.
      * eexists. eapply made_rels; try done. by eapply R_record_noisy.
    + destruct of eqn:Hof.
      * eexists. eapply made_rels; try done. by eapply R_final.
      * inversion Hq2 as [|? ? k ? ks' ? Hr Hp']; subst.
        pose proof (R_chain false cl s dm (queried s) n (f1 :: fs) [] (pq_record (ps_query s)) ks' z v j ps d e t Hq eq_refl Hqs Ha Hj) as HR.
        cbn in HR. eexists. eapply made_rels; try done.
Qed.
Print Assumptions C51_observed.

(** The base of every noisy relation is a relation of the schema, over the first of its
    domains and with values of the same type. *)
Theorem C51_bases : forall only_final record_is_clean s fuel dm refs m,
  well_formed s -> (record_is_clean = true -> record_queried_once s) ->
  compute_domains fuel (ps_classes s) = Ok dm -> compute_refs fuel (ps_classes s) dm = Ok refs ->
  make_hirm_schema only_final record_is_clean s dm refs = Ok m ->
  forall n o ds es b, md_rels m !! n = Some (o, NoisyOf ds es b) ->
  exists db, md_rels m !! b = Some db /\ (exists ext, ds = decl_domains db.2 ++ ext) /\
    match db.2 with Clean _ sp => ds_type sp | NoisyOf _ es' _ => es_type es' end = es_type es.
Proof.
  intros of cl s fuel dm refs m WF Honce Hdm Hrefs Hm n o ds es b H. eapply made_rels in H; try done.
  eapply base_of_rel in H; try done. destruct H as (db & Hdb & He & Ht). exists db. split_and!; try done. by eapply made_rels.
Qed.
Print Assumptions C51_bases.

(** The HIRM constructor accepts the result, whatever the distributions and emissions that
    the specifications stand for. *)
Theorem C51_accepted {V} : forall (build : bool * decl -> t_rel V) only_final record_is_clean s fuel dm refs m r,
  well_formed s -> (record_is_clean = true -> record_queried_once s) ->
  compute_domains fuel (ps_classes s) = Ok dm -> compute_refs fuel (ps_classes s) dm = Ok refs ->
  make_hirm_schema only_final record_is_clean s dm refs = Ok m ->
  (forall d, t_lawful (build d) /\ t_domains (build d) = decl_domains d.2 /\
     t_base (build d) = match d.2 with Clean _ _ => None | NoisyOf _ _ b => Some b end) ->
  exists h r', hirm_new (build <$> md_rels m) r = Ok (h, r').
Proof.
  intros build of cl s fuel dm refs m r WF Honce Hdm Hrefs Hm Hb.
  assert (forall n d, md_rels m !! n = Some d <-> relation_of of cl s dm (queried s) n d) as HR by (intros; by eapply made_rels).
  apply C14_hirm_ctor_accepts.
  - intros n t Ht. rewrite lookup_fmap in Ht. apply fmap_Some in Ht as (d & Hd & ->). destruct (Hb d) as (Hl & Hds & Hbs).
    split; [done|]. intros b tb Hbb Htb. rewrite lookup_fmap in Htb. apply fmap_Some in Htb as (db & Hdb & ->).
    destruct (Hb db) as (_ & Hdsb & _). rewrite Hds, Hdsb. destruct d as [o [ds sp|ds es b']]; cbn in Hbs; [congruence|].
    rewrite Hbs in Hbb. injection Hbb as ->. eapply C51_bases in Hd; try done. destruct Hd as (db' & Hdb' & [ext He] & _).
    rewrite Hdb in Hdb'. injection Hdb' as <-. cbn [decl_domains snd]. rewrite He, app_length. lia.
  - intros n t Ht. rewrite lookup_fmap in Ht. apply fmap_Some in Ht as (d & Hd & ->). destruct (Hb d) as (_ & -> & _).
    apply HR in Hd. by eapply rel_domains.
  - assert (forall n d, relation_of of cl s dm (queried s) n d -> grounded (build <$> md_rels m) n) as HG.
    { assert (forall c v j ps d e t, attribute (ps_classes s) c v j ps -> joint_meaning j = Some (d, e, t) ->
        relation_of of cl s dm (queried s) (c +:+ ":" +:+ v)%string (false, Clean (doms dm c) (DistSpec d t ps)) ->
        grounded (build <$> md_rels m) (c +:+ ":" +:+ v)%string) as HA.
      { intros c v j ps d e t Ha Hj Hrel. eapply grounded_clean; [rewrite lookup_fmap; apply HR in Hrel; rewrite Hrel; reflexivity|].
        by destruct (Hb (false, Clean (doms dm c) (DistSpec d t ps))) as (_ & _ & ->). }
      assert (forall f fs ks z v j ps d e t, queries s f fs ks z v -> fs <> [] -> attribute (ps_classes s) z v j ps ->
        joint_meaning j = Some (d, e, t) -> grounded (build <$> md_rels m) (z +:+ ":" +:+ v)%string) as HZ.
      { intros f fs ks z v j ps d e t Hq Hfs Ha Hj. eapply HA; [done|done|]. eapply R_attribute; [done|done|].
        intros (_ & Hz & _). by eapply (not_record s fuel dm refs). }
      assert (forall k2 f fs k1 k z v j ps d e t, queried s f -> of = false -> queries s f fs (k1 ++ k :: k2) z v ->
        attribute (ps_classes s) z v j ps -> joint_meaning j = Some (d, e, t) ->
        grounded (build <$> md_rels m) (match k1 with [] => f | _ => k +:+ "::" +:+ f end)%string) as HC.
      { intros k2. induction k2 as [|k' k2 IH]; intros f fs k1 k z v j ps d e t HD Hof Hq Ha Hj;
          pose proof (R_chain of cl s dm (queried s) f fs k1 k _ z v j ps d e t HD Hof Hq Ha Hj) as Hrel; apply HR in Hrel.
        - eapply grounded_noisy; [rewrite lookup_fmap, Hrel; reflexivity| |].
          + cbn. match goal with |- t_base (build ?x) = _ => by destruct (Hb x) as (_ & _ & ->) end.
          + eapply HZ; [done| |done|done]. intros ->. destruct Hq as [_ Hp]. inversion Hp. by destruct k1.
        - eapply grounded_noisy; [rewrite lookup_fmap, Hrel; reflexivity| |].
          + cbn. match goal with |- t_base (build ?x) = _ => by destruct (Hb x) as (_ & _ & ->) end.
          + pose proof (IH f fs (k1 ++ [k]) k' z v j ps d e t HD Hof) as HI. rewrite <- app_assoc in HI. specialize (HI Hq Ha Hj). by destruct k1. }
      intros n d Hrel. pose proof Hrel as Hrel'. destruct Hrel as [|f v j ps d e t|f v j ps d e t HD Hc Hf Ha Hj|f fs ks z v j ps d e t HD Hof Hq Hfs Ha Hj|f fs k1 k k2 z v j ps d e t HD Hof Hq Ha Hj].
      - by eapply HA.
      - apply HR in Hrel'. eapply grounded_clean; [rewrite lookup_fmap, Hrel'; reflexivity|].
        match goal with |- t_base (build ?x) = _ => by destruct (Hb x) as (_ & _ & ->) end.
      - apply HR in Hrel'. eapply grounded_noisy; [rewrite lookup_fmap, Hrel'; reflexivity| |].
        + match goal with |- t_base (build ?x) = _ => by destruct (Hb x) as (_ & _ & ->) end.
        + eapply HA; [done|done|]. eapply R_attribute; [done|done|]. intros [? _]. congruence.
      - apply HR in Hrel'. eapply grounded_noisy; [rewrite lookup_fmap, Hrel'; reflexivity| |].
        + match goal with |- t_base (build ?x) = _ => by destruct (Hb x) as (_ & _ & ->) end.
        + by eapply HZ.
      - by eapply HC. }
    intros n [t Ht]. rewrite lookup_fmap in Ht. apply fmap_Some in Ht as (d & Hd & ->). apply HR in Hd. by eapply HG.
Qed.
Print Assumptions C51_accepted.

(** * C52 *)
Lemma right_fills cs ds r : links_right cs ds r -> links_exact cs ds r -> links_fill cs ds r.
Proof.
  intros HR HE.
  assert (forall i f j, link r i f = Some j -> exists k k', ds !! i = Some k /\ refers cs k f k' /\ j < i /\ ds !! j = Some k') as Hs.
  { intros i f j Hl. destruct (HE _ _ _ Hl) as (k & k' & Hk & Hr). destruct (lr_present _ _ _ HR i k f k' Hk Hr) as (j' & Hl' & Hlt & Hj).
    rewrite Hl in Hl'. injection Hl' as <-. by exists k, k'. }
  split.
  - intros i f j Hl. destruct (Hs _ _ _ Hl) as (k & k' & Hk & Hr & Hlt & Hj). split; [done|]. by exists k, k'.
  - intros j Hj. destruct (lr_covered _ _ _ HR j Hj) as (i & k & f & k' & _ & _ & Hl). eauto.
  - intros i i' f f' j Hl Hl'. destruct (Hs _ _ _ Hl) as (k & k' & Hk & Hr & _). destruct (Hs _ _ _ Hl') as (k2 & k2' & Hk2 & Hr2 & _).
    by eapply (lr_unique _ _ _ HR i i' k k2 f f' k' k2' j).
Qed.
Lemma path_goes_suffix cs k1 : forall c f1 v0 f2 k k2 z, length f1 = length k1 -> path_goes cs c (f1 ++ v0 :: f2) (k1 ++ k :: k2) z ->
  path_goes cs k (v0 :: f2) (k :: k2) z.
Proof.
  induction k1 as [|a k1 IH]; intros c f1 v0 f2 k k2 z Hl Hp; destruct f1 as [|b f1]; simpl in *; try lia.
  - inversion Hp; subst. by econstructor.
  - inversion Hp; subst. eapply IH; [|done]. lia.
Qed.
Lemma path_goes_step cs c fs ks z p f : path_goes cs c fs ks z -> fs !! p = Some f ->
  exists k k', ks !! p = Some k /\ (ks ++ [z]) !! S p = Some k' /\ refers cs k f k'.
Proof.
  intros H. revert p. induction H as [c|c f0 k fs ks z Hr Hp IH]; intros p Hf; [done|].
  destruct p as [|p]; simpl in Hf.
  - injection Hf as ->. exists c. destruct ks as [|k0 ks]; simpl.
    + inversion Hp; subst. by exists z.
    + inversion Hp; subst. by exists k0.
  - destruct (IH p Hf) as (a & b & Ha & Hb & Hr'). exists a, b. done.
Qed.
Lemma path_fills cs c fs ks z dz r : path_goes cs c fs ks z -> links_fill cs (dz ++ [z]) r ->
  (forall i, is_Some (r !! i) -> i < length (dz ++ [z])) ->
  links_fill cs ((dz ++ [z]) ++ reverse ks) (r ∪ path_links (length (dz ++ [z])) (reverse fs)).
Proof.
  intros Hp HF Hsm. pose proof (path_goes_lengths _ _ _ _ _ Hp) as Hlen. set (n := length (dz ++ [z])) in *.
  assert (n = S (length dz)) as Hn by (unfold n; rewrite app_length; simpl; lia).
  assert (forall i f j, link (r ∪ path_links n (reverse fs)) i f = Some j <->
    (i < n /\ link r i f = Some j) \/ (exists p, reverse fs !! p = Some f /\ i = n + p /\ j = n + p - 1)) as Hlink.
  { intros i f j. unfold link. rewrite !bind_Some. split.
    - intros (x & Hx & Hf). apply lookup_union_Some_raw in Hx as [Hx|[_ Hx]].
      + left. split; [apply Hsm; eauto|]. by exists x.
      + right. apply path_links_lookup in Hx as (p & w & Hw & -> & ->). apply lookup_singleton_Some in Hf as [-> <-]. by exists p.
    - intros [[Hi (x & Hx & Hf)]|(p & Hw & -> & ->)].
      + exists x. split; [|done]. apply lookup_union_Some_raw. by left.
      + exists {[f := n + p - 1]}. split; [|apply lookup_singleton]. apply lookup_union_Some_raw. right. split.
        * apply eq_None_not_Some. intros Hx. apply Hsm in Hx. lia.
        * apply path_links_lookup. by exists p, f. }
  assert (forall i f j, i < n -> link r i f = Some j -> j < n - 1) as Htarget.
  { intros i f j Hi Hl. destruct (lf_sound _ _ _ HF _ _ _ Hl). lia. }
  split.
  - intros i f j [[Hi Hl]|(p & Hw & -> & ->)]%Hlink.
    + destruct (lf_sound _ _ _ HF _ _ _ Hl) as (Hlt & k & k' & Hk & Hk' & Hr). split; [done|]. exists k, k'.
      split_and!; [by apply lookup_app_l_Some|by apply lookup_app_l_Some|done].
    + split; [lia|]. assert (p < length fs) as Hpl by (apply lookup_lt_Some in Hw; by rewrite reverse_length in Hw).
      rewrite reverse_lookup in Hw by done. destruct (path_goes_step _ _ _ _ _ _ _ Hp Hw) as (k & k' & Hk & Hk' & Hr).
      exists k, k'. split_and!; [| |done].
      * rewrite lookup_app_r by lia. replace (n + p - length (dz ++ [z])) with p by lia.
        rewrite reverse_lookup by lia. by rewrite <- Hlen.
      * destruct p as [|p].
        -- replace (n + 0 - 1) with (length dz) by lia. rewrite lookup_app_l by lia. rewrite lookup_app_r by lia. rewrite Nat.sub_diag.
           rewrite lookup_app_r in Hk' by lia. replace (S (length fs - 1) - length ks) with 0 in Hk' by lia. done.
        -- replace (n + S p - 1) with (n + p) by lia. rewrite lookup_app_r by lia. replace (n + p - length (dz ++ [z])) with p by lia.
           rewrite reverse_lookup by lia. rewrite lookup_app_l in Hk' by lia. rewrite <- Hk'. f_equal. lia.
  - intros j Hj. rewrite app_length, reverse_length in Hj. destruct (decide (S j < n)) as [Hs|Hs].
    + destruct (lf_covered _ _ _ HF j) as (i & f & Hl); [done|]. exists i, f. apply Hlink. left. split; [|done].
      apply Hsm. unfold link in Hl. apply bind_Some in Hl as (x & Hx & _). eauto.
    + destruct (lookup_lt_is_Some_2 (reverse fs) (S j - n)) as [f Hf]; [rewrite reverse_length; lia|].
      exists (S j), f. apply Hlink. right. exists (S j - n). split_and!; [done|lia|lia].
  - intros i i' f f' j [[Hi Hl]|(p & Hw & -> & ->)]%Hlink [[Hi' Hl']|(p' & Hw' & -> & Hj)]%Hlink.
    + by eapply (lf_unique _ _ _ HF).
    + apply Htarget in Hl; [lia|done].
    + apply Htarget in Hl'; [lia|done].
    + assert (p' = p) as -> by lia. split; [done|congruence].
Qed.

(** The reference links of the relations fill their item vectors, when relations of the
    record class are not renamed and there is an emission for every class of a path.  ([shallow]: see
    C39_links_refuted.) *)
Theorem C52_links : forall record_is_clean s fuel dm refs m,
  well_formed s -> (record_is_clean = true -> record_queried_once s) -> (forall c, shallow (ps_classes s) c) ->
  compute_domains fuel (ps_classes s) = Ok dm -> compute_refs fuel (ps_classes s) dm = Ok refs ->
  make_hirm_schema false record_is_clean s dm refs = Ok m ->
  forall n d, md_rels m !! n = Some d ->
  ~ (record_is_clean = true /\ exists v, pq_fields (ps_query s) !! n = Some [v]) ->
  links_fill (ps_classes s) (decl_domains d.2) (default ∅ (md_refs m !! n)).
Proof.
  intros cl s fuel dm refs m WF Honce Hsh Hdm Hrefs Hm n d Hd Hnr.
  destruct (computed_facts s fuel dm refs (wf_closed s WF) Hdm Hrefs) as (Hac & Hsm & Hend & HLR & HLE).
  destruct (make_hirm_schema_Ok false cl s dm refs WF Hac Hsm Honce) as (m' & E & [H1 H2]). rewrite Hm in E. injection E as <-.
  assert (forall c, is_Some (ps_classes s !! c) -> links_fill (ps_classes s) (doms dm c) (default ∅ (refs !! c))) as HC.
  { intros c Hc. apply right_fills; [by apply HLR|by apply HLE]. }
  assert (forall n r, attr_link s refs n r \/ (exists f, is_Some (pq_fields (ps_query s) !! f) /\ field_link false cl s dm refs f n r) <-> md_refs m !! n = Some r) as H2' by (intros; by rewrite H2).
  apply H1 in Hd as [(c & v & j & ps & dd & e & t & Ha & Hj & Hr & -> & ->)|(f & HD & Hx)].
  - assert (md_refs m !! attr_name c v = refs !! c) as -> by (by eapply (attr_refs false cl s dm refs WF Hac Hsm _ m c v j ps (conj H1 H2))).
    apply HC. destruct Ha as (cl' & Hc & _). eauto.
  - revert Hnr. destruct Hx as [v j ps dd e t Hc Hf Ha Hj|v j ps dd e t Hc Hf Ha Hj|? ? ? ? ? ? ? ? ? Hof|fs k1 k k2 z v j ps dd e t Hof Hq Ha Hj];
      intros Hnr; [| |done|].
    + exfalso. apply Hnr. eauto.
    + cbn [decl_domains snd].
      assert (md_refs m !! f = refs !! pq_record (ps_query s)) as ->; [|apply HC, (wf_record s WF)].
      apply option_eq. intros r. rewrite H2. split.
      * intros [(c & v' & j' & ps' & Ha' & -> & _)|(f' & HD' & Hl)].
        -- exfalso. eapply (field_name_not_attr s WF); [|exact Ha'|by left|done]. by apply (wf_fields s WF).
        -- assert (f' = f) as ->.
           { eapply (field_name_inj f' f f); [by apply (wf_fields s WF)|by apply (wf_fields s WF)|by eapply (field_link_name false cl s dm refs WF Hac Hsm)|by left]. }
           inversion Hl as [|? ? ? ? Hof|? ? ? ? ? ? ? ? Hof [Hq _]]; [by subst|done|].
           match goal with H : _ = f |- _ => rewrite H in Hq end. rewrite Hf in Hq. injection Hq as Hq.
           apply (f_equal length) in Hq. rewrite !app_length in Hq. simpl in Hq. lia.
      * intros Hr. right. exists f. split; [done|]. by eapply FL_record_noisy.
    + cbn [decl_domains snd]. pose proof (path_goes_lengths _ _ _ _ _ (proj2 Hq)) as Hlen.
      assert (exists f1 v0 f2, fs = f1 ++ v0 :: f2 /\ length f1 = length k1) as (f1 & v0 & f2 & -> & Hl1).
      { rewrite app_length in Hlen. simpl in Hlen. destruct (lookup_lt_is_Some_2 fs (length k1)) as [v0 Hv0]; [lia|].
        exists (take (length k1) fs), v0, (drop (S (length k1)) fs). rewrite take_drop_middle by done. split; [done|]. rewrite take_length. lia. }
      assert (field_link false cl s dm refs f (match k1 with [] => f | _ => lower_name k f end)
        (default ∅ (refs !! z) ∪ path_links (length (doms dm z)) (reverse f2 ++ [v0]))) as Hl by by eapply (FL_chain false cl s dm refs f f1 v0 f2 k1 k k2 z v).
      assert (md_refs m !! (match k1 with [] => f | _ => lower_name k f end) = Some (default ∅ (refs !! z) ∪ path_links (length (doms dm z)) (reverse f2 ++ [v0]))) as ->.
      { apply H2. right. by exists f. }
      cbn [default from_option]. assert (is_Some (ps_classes s !! z)) as Hz by (destruct Ha as (? & ? & _); eauto).
      destruct (Hend z Hz) as [dz Hdz].
      pose proof (path_goes_suffix _ _ _ _ _ _ _ _ _ Hl1 (proj2 Hq)) as Hp.
      pose proof (path_fills _ _ _ _ _ dz (default ∅ (refs !! z)) Hp) as HF. rewrite !reverse_cons in HF. rewrite <- Hdz in HF.
      apply HF; [by apply HC|]. intros i Hi. destruct (refs !! z) as [r|] eqn:Hr; [by eapply Hsm|]. cbn in Hi. rewrite lookup_empty in Hi. by destruct Hi.
Qed.
Print Assumptions C52_links.

(** A field that renames an attribute of the record class has no reference links at all: if
    the record class refers to another class, its item vectors are not filled. *)
Theorem C52_record_clean_refuted : forall only_final s fuel dm refs m f v,
  well_formed s -> record_queried_once s ->
  compute_domains fuel (ps_classes s) = Ok dm -> compute_refs fuel (ps_classes s) dm = Ok refs ->
  make_hirm_schema only_final true s dm refs = Ok m ->
  pq_fields (ps_query s) !! f = Some [v] -> (exists k, references (ps_classes s) (pq_record (ps_query s)) k) ->
  md_refs m !! f = None /\
  exists d, md_rels m !! f = Some d /\ 1 < length (decl_domains d.2) /\ ~ links_fill (ps_classes s) (decl_domains d.2) (default ∅ (md_refs m !! f)).
Proof.
  intros of s fuel dm refs m f v WF Honce Hdm Hrefs Hm Hf [k [g Hk]].
  destruct (computed_facts s fuel dm refs (wf_closed s WF) Hdm Hrefs) as (Hac & Hsm & Hend & HLR & HLE).
  destruct (make_hirm_schema_Ok of true s dm refs WF Hac Hsm (fun _ => Honce)) as (m' & E & [H1 H2]). rewrite Hm in E. injection E as <-.
  assert (queried s f) as HD by (unfold queried; eauto).
  assert (md_refs m !! f = None) as Hn.
  { apply eq_None_not_Some. intros [r Hr]. apply H2 in Hr as [(c & v' & j' & ps' & Ha' & E & _)|(f' & HD' & Hl)].
    - eapply (field_name_not_attr s WF f f); [by apply (wf_fields s WF)|exact Ha'|by left|done].
    - assert (f' = f) as ->.
      { eapply (field_name_inj f' f f); [by apply (wf_fields s WF)|by apply (wf_fields s WF)|by eapply (field_link_name of true s dm refs WF Hac Hsm)|by left]. }
      inversion Hl as [|? ? ? ? Hof [Hq _] Hfs|? ? ? ? ? ? ? ? Hof [Hq _]]; subst; [done|..];
        try match goal with H : _ = f |- _ => rewrite H in Hq end; rewrite Hf in Hq; injection Hq as Hq;
        apply (f_equal length) in Hq; rewrite !app_length in Hq; simpl in Hq; [|lia]. destruct fs; simpl in *; [done|lia]. }
  split; [done|].
  destruct (wf_paths s WF f _ Hf) as (fs & ks & z & v' & j & ps & [Hq Hp] & Ha). rewrite Hf in Hq. injection Hq as Hq.
  destruct fs as [|? [|? ?]]; [|done..]. injection Hq as <-. inversion Hp; subst.
  destruct (wf_joints s WF _ v j ps Ha) as [[[d e] t] Hj].
  assert (1 < length (doms dm (pq_record (ps_query s)))) as Hlen.
  { destruct (Hend _ (wf_record s WF)) as [ds Hds]. pose proof (HLR _ (wf_record s WF)) as HR. rewrite Hds in *.
    destruct (lr_present _ _ _ HR (length ds) (pq_record (ps_query s)) g k) as (j' & _ & Hlt & _).
    - rewrite lookup_app_r by done. by rewrite Nat.sub_diag.
    - done.
    - rewrite app_length. simpl. lia. }
  exists (true, Clean (doms dm (pq_record (ps_query s))) (DistSpec d t ps)). split_and!; [|done|].
  - apply H1. right. exists f. split; [done|]. by eapply F_record_clean.
  - rewrite Hn. intros HF. destruct (lf_covered _ _ _ HF 0) as (i & g' & Hl); [exact Hlen|]. unfold link in Hl. cbn in Hl. by rewrite lookup_empty in Hl.
Qed.
Print Assumptions C52_record_clean_refuted.

(** With [only_final_emissions], the links of the path are lost when the class of the
    queried attribute has reference fields of its own. *)
Theorem C52_only_final_refuted : forall record_is_clean s fuel dm refs m f fs ks z v,
  well_formed s -> (record_is_clean = true -> record_queried_once s) ->
  compute_domains fuel (ps_classes s) = Ok dm -> compute_refs fuel (ps_classes s) dm = Ok refs ->
  make_hirm_schema true record_is_clean s dm refs = Ok m ->
  queries s f fs ks z v -> fs <> [] -> (exists k, references (ps_classes s) z k) ->
  md_refs m !! f = refs !! z /\
  exists d, md_rels m !! f = Some d /\ ~ links_fill (ps_classes s) (decl_domains d.2) (default ∅ (md_refs m !! f)).
Proof.
  intros cl s fuel dm refs m f fs ks z v WF Honce Hdm Hrefs Hm Hq Hfs [k [g Hk]].
  destruct (computed_facts s fuel dm refs (wf_closed s WF) Hdm Hrefs) as (Hac & Hsm & Hend & HLR & HLE).
  destruct (make_hirm_schema_Ok true cl s dm refs WF Hac Hsm Honce) as (m' & E & [H1 H2]). rewrite Hm in E. injection E as <-.
  assert (queried s f) as HD by (unfold queried; destruct Hq as [-> _]; eauto).
  destruct (wf_paths s WF f _ (proj1 Hq)) as (fs' & ks' & z' & v' & j & ps & Hq' & Ha).
  assert (ks' = ks /\ z' = z /\ v' = v) as (-> & -> & ->).
  { destruct (queries_det s _ _ _ _ _ _ _ _ _ Hq Hq') as (_ & ? & ? & ?). done. }
  destruct (wf_joints s WF _ v j ps Ha) as [[[d e] t] Hj].
  assert (is_Some (ps_classes s !! z)) as Hz by (destruct Ha as (? & ? & _); eauto).
  destruct (Hend z Hz) as [dz Hdz]. pose proof (HLR z Hz) as HR.
  assert (exists r, refs !! z = Some r) as [r Hr].
  { destruct (refs !! z) eqn:Er; [eauto|]. destruct (lr_present _ _ _ HR (length dz) z g k) as (j' & Hl & _); [|done|].
    - rewrite Hdz. rewrite lookup_app_r by done. by rewrite Nat.sub_diag.
    - unfold link in Hl. cbn in Hl. by rewrite lookup_empty in Hl. }
  assert (md_refs m !! f = Some r) as Hn.
  { apply H2. right. exists f. split; [done|]. pose proof (FL_final true cl s dm refs f fs ks z v eq_refl Hq Hfs) as HL. by rewrite Hr in HL. }
  split; [congruence|]. exists (true, NoisyOf (doms dm z ++ reverse ks)%list (EmisSpec e t ps) (attr_name z v)).
  split; [apply H1; right; exists f; split; [done|by apply (F_final true cl s dm f fs ks z v j ps d e t)]|].
  cbn [decl_domains snd]. rewrite Hn. cbn [default from_option]. intros HF.
  pose proof (path_goes_lengths _ _ _ _ _ (proj2 Hq)) as Hlen.
  destruct (lf_covered _ _ _ HF (length dz)) as (i & g' & Hl).
  - rewrite Hdz, !app_length, reverse_length. simpl. destruct fs; [done|]. simpl in Hlen. lia.
  - destruct (lf_sound _ _ _ HF _ _ _ Hl) as [Hlt _]. assert (i < length (doms dm z)) as Hi.
    { eapply Hsm; [exact Hr|]. unfold link in Hl. apply bind_Some in Hl as (x & Hx & _). eauto. }
    rewrite Hdz, app_length in Hi. simpl in Hi. lia.
Qed.
Print Assumptions C52_only_final_refuted.

(** Two fields that query the same attribute of the record class: the first renames its
    relation and the second does not find it. *)
Definition C51_twice : pschema :=
  PSchema {[ "Record" := {[ "name" := PScalar "string" ∅ ]} ]} (PQuery "Record" {[ "A" := ["name"]; "B" := ["name"] ]}).

(** Well-formedness can be decided. *)
Definition plain (s : string) : bool := bool_decide (":"%char ∉ list_ascii_of_string s).
Fixpoint leads (cs : gmap string pclass) (c : string) (path : list string) : bool :=
  match cs !! c, path with
  | Some cl, [v] => match cl !! v with Some (PScalar _ _) => true | _ => false end
  | Some cl, f :: path' => match cl !! f with Some (PClassVar k) => leads cs k path' | _ => false end
  | _, _ => false
  end.
Definition is_well_formed (s : pschema) : bool :=
  let cs := ps_classes s in
  is_closed cs && bool_decide (is_Some (cs !! pq_record (ps_query s))) &&
  forallb (fun p : string * pclass => plain p.1 && forallb (fun q : string * pvar => plain q.1 &&
    match q.2 with PScalar j _ => bool_decide (is_Some (joint_meaning j)) | _ => true end) (map_to_list p.2)) (map_to_list cs) &&
  forallb (fun p : string * list string => plain p.1 && leads cs (pq_record (ps_query s)) p.2) (map_to_list (pq_fields (ps_query s))).
Lemma leads_ok cs path : forall c, leads cs c path = true ->
  exists fs ks z v j ps, path = fs ++ [v] /\ path_goes cs c fs ks z /\ attribute cs z v j ps.
Proof.
  induction path as [|v path IH]; intros c H; simpl in H; [by destruct (cs !! c)|].
  destruct (cs !! c) as [cl|] eqn:Hc; [|done]. destruct path as [|w path].
  - destruct (cl !! v) as [[j ps|]|] eqn:Hv; try done. exists [], [], c, v, j, ps. split_and!; [done|constructor|]. by exists cl.
  - destruct (cl !! v) as [[|k]|] eqn:Hv; try done. destruct (IH k H) as (fs & ks & z & x & j & ps & -> & Hp & Ha).
    exists (v :: fs), (c :: ks), z, x, j, ps. split_and!; [done| |done]. econstructor; [|done]. by exists cl.
Qed.
Lemma is_well_formed_ok s : is_well_formed s = true -> well_formed s.
Proof.
  unfold is_well_formed. rewrite !andb_true_iff, !forallb_forall. intros [[[H1 H2] H3] H4].
  assert (forall c cl, ps_classes s !! c = Some cl -> no_colon c /\ forall v x, cl !! v = Some x -> no_colon v /\
    match x with PScalar j _ => is_Some (joint_meaning j) | _ => True end) as HC.
  { intros c cl Hc. specialize (H3 (c, cl)). cbn in H3. rewrite andb_true_iff, forallb_forall in H3.
    destruct H3 as [Hp Hv]; [by apply elem_of_list_In, elem_of_map_to_list|]. split; [by apply bool_decide_eq_true in Hp|].
    intros v x Hx. specialize (Hv (v, x)). cbn in Hv. rewrite andb_true_iff in Hv.
    destruct Hv as [Hp' Hm]; [by apply elem_of_list_In, elem_of_map_to_list|]. split; [by apply bool_decide_eq_true in Hp'|].
    destruct x; [by apply bool_decide_eq_true in Hm|done]. }
  assert (forall f path, pq_fields (ps_query s) !! f = Some path -> no_colon f /\ leads (ps_classes s) (pq_record (ps_query s)) path = true) as HF.
  { intros f path Hf. specialize (H4 (f, path)). cbn in H4. rewrite andb_true_iff in H4.
    destruct H4 as [Hp Hl]; [by apply elem_of_list_In, elem_of_map_to_list|]. by apply bool_decide_eq_true in Hp. }
  split.
  - by apply is_closed_ok.
  - intros c v j ps (cl & Hc & Hv). by apply (HC c cl Hc) in Hv as [_ ?].
  - by apply bool_decide_eq_true in H2.
  - intros f path Hf. destruct (HF f path Hf) as [_ Hl]. destruct (leads_ok _ _ _ Hl) as (fs & ks & z & v & j & ps & -> & ? & ?).
    exists fs, ks, z, v, j, ps. done.
  - intros c [cl Hc]. by apply (HC c cl).
  - intros c cl v Hc [x Hv]. by eapply (HC c cl Hc).
  - intros f [path Hf]. by apply (HF f path).
Qed.

Theorem C51_same_attribute_refuted : exists s dm refs, well_formed s /\ compute_domains 2 (ps_classes s) = Ok dm /\
  compute_refs 2 (ps_classes s) dm = Ok refs /\
  (exists f f' v, f <> f' /\ pq_fields (ps_query s) !! f = Some [v] /\ pq_fields (ps_query s) !! f' = Some [v]) /\
  forall only_final, make_hirm_schema only_final true s dm refs = Throws.
Proof.
  set (dm := unwrap ∅ (compute_domains 2 (ps_classes C51_twice))).
  set (refs := unwrap ∅ (compute_refs 2 (ps_classes C51_twice) dm)).
  exists C51_twice, dm, refs. split_and!.
  - apply is_well_formed_ok. vm_compute. reflexivity.
  - apply unwrap_ok. vm_compute. reflexivity.
  - apply unwrap_ok. vm_compute. reflexivity.
  - exists "A", "B", "name". done.
  - intros [|]; vm_compute; reflexivity.
Qed.
Print Assumptions C51_same_attribute_refuted.

(** A schema of four classes, and a query of an attribute of the record class, of an
    attribute one reference away and of one two references away. *)
Definition C51_schema : pschema :=
  PSchema
    {[ "School" := {[ "name" := PScalar "string" ∅ ]};
       "City" := {[ "name" := PScalar "stringcat" ∅; "size" := PScalar "real" ∅ ]};
       "Physician" := {[ "degree" := PScalar "string" ∅; "school" := PClassVar "School" ]};
       "Record" := {[ "physician" := PClassVar "Physician"; "city" := PClassVar "City"; "id" := PScalar "categorical" ∅ ]} ]}
    (PQuery "Record" {[ "ID" := ["id"]; "City" := ["city"; "name"]; "Degree" := ["physician"; "degree"];
                        "School" := ["physician"; "school"; "name"] ]}).
Example C51_schema_wf : well_formed C51_schema /\ record_queried_once C51_schema.
Proof.
  split; [apply is_well_formed_ok; vm_compute; reflexivity|].
  assert (forallb (fun p : string * list string => forallb (fun q : string * list string =>
    negb (bool_decide (p.2 = q.2)) || bool_decide (p.1 = q.1)) (map_to_list (pq_fields (ps_query C51_schema))))
    (map_to_list (pq_fields (ps_query C51_schema))) = true) as H by (vm_compute; reflexivity).
  intros f f' v H1%elem_of_map_to_list%elem_of_list_In H2%elem_of_map_to_list%elem_of_list_In.
  rewrite forallb_forall in H. specialize (H _ H1). rewrite forallb_forall in H. specialize (H _ H2). cbn in H.
  rewrite bool_decide_true in H by done. by apply bool_decide_eq_true in H.
Qed.
Example C52_schema_shallow : forall c, shallow (ps_classes C51_schema) c.
Proof.
  intros c. destruct (decide (c ∈ map fst (map fst (all_refs (ps_classes C51_schema))))) as [Hc|Hc].
  - apply is_shallow_ok.
    assert (forallb (is_shallow (ps_classes C51_schema)) (map fst (map fst (all_refs (ps_classes C51_schema)))) = true) as H by (vm_compute; reflexivity).
    rewrite forallb_forall in H. by apply H, elem_of_list_In.
  - intros a b d [f Hf%refers_cases]. exfalso. apply Hc. change c with (fst (fst (c, f, a))). apply elem_of_list_In, in_map, in_map, elem_of_list_In, Hf.
Qed.
(** The caches and the HIRM schemas of all four modes exist, and the two modes in which
    the links are lost apply to this schema: "ID" is an attribute of the record class, which has references,
    and "Degree" one of "Physician", which has one. *)
Example C51_schema_made : exists dm refs, compute_domains 3 (ps_classes C51_schema) = Ok dm /\
  compute_refs 3 (ps_classes C51_schema) dm = Ok refs /\
  (forall of cl, is_ok (make_hirm_schema of cl C51_schema dm refs) = true) /\
  pq_fields (ps_query C51_schema) !! "ID" = Some ["id"] /\ references (ps_classes C51_schema) "Record" "City" /\
  queries C51_schema "Degree" ["physician"] ["Record"] "Physician" "degree" /\ references (ps_classes C51_schema) "Physician" "School".
Proof.
  set (dm := unwrap ∅ (compute_domains 3 (ps_classes C51_schema))).
  set (refs := unwrap ∅ (compute_refs 3 (ps_classes C51_schema) dm)).
  exists dm, refs. split_and!.
  - apply unwrap_ok. vm_compute. reflexivity.
  - apply unwrap_ok. vm_compute. reflexivity.
  - intros [|] [|]; vm_compute; reflexivity.
  - done.
  - exists "city". eexists. split; [vm_compute; reflexivity|]. vm_compute. reflexivity.
  - split; [done|]. econstructor; [|constructor]. eexists. split; [vm_compute; reflexivity|]. vm_compute. reflexivity.
  - exists "school". eexists. split; [vm_compute; reflexivity|]. vm_compute. reflexivity.
Qed.
