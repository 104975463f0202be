(** Invariants of a GenDB whose references are resampled. *)
From Coq Require Import String Ascii.
From stdpp Require Import gmap strings list sorting relations.
From Coq Require Import ZArith Reals Lia.
From Verif Require Import M_base M_math M_crp M_domain M_dist M_relation M_noisy M_irm M_logp M_hirm M_inference M_schema M_pclean_io M_gendb M_gendb_rels
  M_gendb_state M_pclean M_gendb_trans
  S_crp S_crp_state S_irm S_hirm S_inference S_gendb S_gendb_rels S_gendb_state S_gendb_life P_base P_crp P_irm_schema P_inference P_gendb P_gendb_links P_gendb_rels
  T_gendb_rels P_gendb_ents P_gendb_fill P_gendb_data P_gendb_blank P_gendb_vec P_gendb_reach T_gendb_state T_gendb_rows P_gendb_trans P_gendb_move P_gendb_life P_gendb_keep.
Local Open Scope nat_scope.

(** The candidates are entities in use, or one above all of them. *)
Lemma gibbs_keys crp a t w x : holds_seating crp a -> crp_tables_weights_gibbs crp t = Ok w -> x ∈ dom w ->
  customers_at a x <> ∅ \/ forall t', customers_at a t' <> ∅ -> (t' < x)%Z.
Proof.
  intros Ha H Hx. unfold crp_tables_weights_gibbs in H. apply obind_Ok in H as (u1 & _ & H). apply obind_Ok in H as (u2 & Ht%assert_Ok & H).
  apply bool_decide_eq_true_1 in Ht. assert (customers_at a t <> ∅) as Htu.
  { destruct Ht as [y Hy]. rewrite (hs_tables _ _ Ha) in Hy. by destruct (decide (customers_at a t = ∅)). }
  assert (a <> ∅) as Hne by (intros ->; by rewrite customers_at_empty in Htu).
  apply obind_Ok in H as (d & Hd & H). destruct (tables_weights_spec crp a Ha Hne) as (w' & tn & Hw' & Hemp & Hlt & Hlk). assert (w' = d) as -> by congruence.
  apply obind_Ok in H as (w1 & _ & H).
  assert (x ∈ dom d \/ x = t) as [Hxd| ->]; [|destruct (decide (customers_at a x = ∅)) as [E|E]; [right|by left]|by left].
  { destruct (Req_EM_T (w1 - 1) 0).
    - apply obind_Ok in H as (tm & _ & [= <-]). apply elem_of_dom in Hx as [y Hy]. apply lookup_delete_Some in Hy as [_ Hy].
      apply lookup_insert_Some in Hy as [[-> _]|[_ Hy]]; [by right|left]. apply elem_of_dom. eauto.
    - injection H as <-. apply elem_of_dom in Hx as [y Hy]. apply lookup_insert_Some in Hy as [[-> _]|[_ Hy]]; [by right|left]. apply elem_of_dom. eauto. }
  apply elem_of_dom in Hxd as [y Hy]. rewrite Hlk, decide_True in Hy by done. destruct (decide (x = tn)) as [->|]; [|done]. done.
Qed.

Lemma observed_qd {V} (h : hirm V) q l v : observed h q l v <-> qd h q !! l = Some v.
Proof.
  unfold observed, qd. split.
  - intros (a & -> & H). done.
  - destruct (hirm_lookup h q) as [a|]; cbn; [eauto|]. by rewrite lookup_empty.
Qed.
Lemma cell_qd {V} (g : gendb V) q k v : cell g q k v <-> exists l, qd (g_hirm g) q !! l = Some v /\ last l = Some k.
Proof. unfold cell. split; intros (l & H & Hl); exists l; (split; [by apply observed_qd|done]). Qed.

Section Life.
Context {V : Type} (rid : hash_fn) (build : hdecl -> t_rel V) (record_is_clean : bool) (s : pschema).
Hypotheses (WF : well_formed s) (Honce : record_is_clean = true -> record_queried_once s) (Hsh : forall c, shallow (ps_classes s) c)
  (Hfaith : faithful build).
Notation cs := (ps_classes s).
Notation rc := (pq_record (ps_query s)).
Notation vec := (vec record_is_clean s).

Section Made.
Variables (fuel : nat) (dm : gmap string (list string)) (refs : gmap string links) (m : made).
Hypotheses (Hdm : compute_domains fuel cs = Ok dm) (Hrefs : compute_refs fuel cs dm = Ok refs) (Hm : make_hirm_schema false record_is_clean s dm refs = Ok m).
Notation inv := (ginv rid build s m vec).

Lemma vec_grow e e' n l : ents_grow e e' -> vec e n l -> vec e' n l.
Proof. intros Hg H HQ Hd. eapply relation_vector_grow; [done|by apply H]. Qed.
Lemma vec_base e n l o ds es b db : md_rels m !! n = Some (o, NoisyOf ds es b) -> md_rels m !! b = Some db ->
  vec e n l -> vec e b (take (length (decl_domains db.2)) l).
Proof. intros Hn Hb _ HQ. exfalso. by eapply (base_not_field record_is_clean s fuel dm refs m WF Honce Hdm Hrefs Hm). Qed.
Lemma vec_uniq e n d i e' l : md_rels m !! n = Some d ->
  unique_items_for rid e (decl_domains d.2) (default ∅ (md_refs m !! n)) i = Ok (e', l) -> vec e' n l.
Proof. intros Hd H HQ Hdir. by eapply (vo_uniq rid false record_is_clean s WF Honce Hsh fuel dm refs m Hdm Hrefs Hm). Qed.
Lemma vec_path e q fs v i l : pq_fields (ps_query s) !! q = Some (fs ++ [v]) -> path_vector cs e rc fs i l -> vec e q l.
Proof. intros Hq Hv HQ Hdir. by eapply (vo_path false record_is_clean s WF dm refs m Hm). Qed.
Definition inc_life := gendb_incorporate_ok rid build s m vec (paths_ok s WF)
  (snd_ok false record_is_clean s WF Honce Hsh fuel dm refs m Hdm Hrefs Hm) Hfaith vec_grow vec_base vec_uniq vec_path.
Definition sample_life := pclean_sample_ok rid build s m vec (paths_ok s WF) Hfaith vec_grow vec_base vec_path.

(** What resampling one reference does. *)
Record moves (c f : string) (i : Z) (g g' : gendb V) : Prop := {
  mo_inv : inv g';
  mo_rels : rels_sound g';
  mo_cells : same_cells s g g';
  mo_hschema : h_schema (g_hirm g') = h_schema (g_hirm g);
  mo_fuel : g_fuel g' = g_fuel g;
  mo_except : except c f i (g_ents g) (g_ents g');
  mo_value : exists k x x', refers cs c f k /\ recorded (g_ents g) c f i x /\ recorded (g_ents g') c f i x' /\
    ((exists c1 f1 i1, refers cs c1 f1 k /\ recorded (g_ents g) c1 f1 i1 x') \/
     (forall c1 f1 i1 y, refers cs c1 f1 k -> recorded (g_ents g) c1 f1 i1 y -> (y < x')%Z)) /\
    (forall d, d <> c -> ~ rtc (references cs) k d -> en_refs (g_ents g') !! d = en_refs (g_ents g) !! d) /\
    (forall d, d <> k -> ~ tc (references cs) k d -> en_crps (g_ents g') !! d = en_crps (g_ents g) !! d);
}.
Lemma transition_ok o to g c f i r r2 g' r' : orders_ok o -> torders_ok to -> inv g -> rels_sound g -> rtc (references cs) rc c ->
  transition_reference rid o to g c f i r r2 = Ok (g', r') -> moves c f i g g'.
Proof.
  intros Ho Hto Hi Hs Hc H. unfold transition_reference in H. rewrite (gi_schema _ _ _ _ _ _ Hi) in H.
  apply obind_Ok in H as (cl & Hcl%at_Ok & H). apply obind_Ok in H as (v & Hv%at_Ok & H). destruct v as [|k]; [done|].
  assert (refers cs c f k) as Hr by (exists cl; done).
  apply obind_Ok in H as (init & Hin & H). assert (recorded (g_ents g) c f i init) as Hinit.
  { unfold reference_value in Hin. apply obind_Ok in Hin as (mm & Hmm%at_Ok & Hx%at_Ok). by exists mm. }
  apply obind_Ok in H as (crp & Hcrp%at_Ok & H). apply obind_Ok in H as (dist & Hdist & H).
  pose proof (gi_agree _ _ _ _ _ _ Hi) as HA. destruct (ea_seated _ _ _ HA k crp Hcrp) as (a & Ha & Hcust).
  assert (a !! rid c f i = Some init) as Hai by (apply Hcust; eauto 10).
  case_bool_decide as Hsz.
  { injection H as <- <-. split; [done|done|done|done|done|apply except_refl|]. exists k, init, init. split_and!; try done. left. eauto. }
  unfold transition_among in H. apply obind_Ok in H as (inds & Hinds & H). apply obind_Ok in H as ([[[lp0 g1] stored] un] & Hd & H).
  apply (unincorporate_reference_ok (Qf s)) in Hd as (E1 & S1 & HT1); [|done|..|].
  2: { eapply (bases_here build record_is_clean s fuel dm refs m WF Honce Hfaith Hdm Hrefs Hm). apply Hi. }
  2: { apply Hi. }
  2: { eapply inds_here; [apply Hi|exact Hinds]. }
  rewrite E1 in H. cbn [g_set g_ents en_refs en_crps] in H. rewrite Hcrp in H. cbn [at_ obind] in H.
  apply obind_Ok in H as (crp1 & Hcrp1 & H).
  destruct (candidates_ok crp a _ init dist crp1 Ha Hai Hdist Hcrp1) as [Hsg Hcand].
  set (single := single_entity crp dist init) in *. set (D1 := fun q => qd (g_hirm g1) q).
  assert (forall q l, Qf s q -> (touched i (positions inds q) l -> D1 q !! l = None /\ sd stored q !! l = qd (g_hirm g) q !! l) /\
    (~ touched i (positions inds q) l -> D1 q !! l = qd (g_hirm g) q !! l /\ sd stored q !! l = None)) as HD1.
  { intros q l HQ. specialize (HT1 q HQ l) as [T1 T2]. assert (sd (∅ : gmap string (gmap items_t V)) q !! l = None) as Es0 by done. split.
    - intros HTl. destruct (qd (g_hirm g) q !! l) as [w|] eqn:Ew; [by apply T1; eauto|]. destruct T2 as [T2 T3]; [by right|]. split; [exact T2|]. by rewrite T3.
    - intros HTl. destruct T2 as [T2 T3]; [by left|]. split; [done|]. by rewrite T3. }
  set (g2 := g_set (g_set g (g_ents g) (g_hirm g1)) (Ents (en_refs (g_ents g)) (<[k:=crp1]> (en_crps (g_ents g)))) (g_hirm g1)) in H.
  assert (jinv rid s c f k i g D1 crp1 g2) as J2.
  { split; cbn [g2 g_set g_hirm g_ents en_refs en_crps]; try done.
    - split_and!; [apply Hi|done..].
    - intros c' f' i' y _ Hy. exact Hy.
    - by rewrite lookup_insert.
    - eapply erase_agree; [apply Hi|done|done|done|done].
    - intros d Hdk _. by rewrite lookup_insert_ne. }
  apply obind_Ok in H as ([[[[lp1 g3] row] un1] ue] & H3 & H).
  assert (jinv rid s c f k i g D1 crp1 g3 /\ (forall q, Qf s q -> row !! q = None) /\ ue = ∅) as (J3 & Hrow & ->).
  { case_bool_decide as Hsi.
    - apply obind_Ok in H3 as ([[[[lp' g4] row4] un4] ue4] & H3 & H4). injection H4 as _ <- <- _ <-.
      eapply (singleton_ok rid build record_is_clean s fuel dm refs m WF Honce Hfaith Hdm Hrefs Hm c f k i o g Hi Hs Hc Hr D1 crp1) with (x := init) in H3; [| done| done| by rewrite <- Hsi|done].
      destruct H3 as (J4 & _ & -> & Hrow4). done.
    - injection H3 as _ <- <- _ <-. done. }
  cbn iota beta in H. apply obind_Ok in H as (mv & Hmv & H).
  apply (foldM_inv _ (minv rid s c f k i g D1 crp1 single)) in Hmv; [|by split|].
  2: { intros mv1 x mv2 _ I1 Hx.
       eapply (try_entity_ok rid build record_is_clean s fuel dm refs m WF Honce Hsh Hfaith Hdm Hrefs Hm c f k i init o g inds Ho Hi Hs Hc Hr Hinit Hinds D1 stored HD1 crp1); [exact Hsg|exact I1|exact Hx]. }
  destruct Hmv as [J Hrow' Hfr]. apply obind_Ok in H as ([kk r3] & _ & H). apply obind_Ok in H as (x & Hx%at_Ok & H). apply obind_Ok in H as (upd & Hu & H).
  apply obind_Ok in H as (un5 & _ & H). apply obind_Ok in H as (g5 & Hre & H). injection H as <- <-.
  assert (exists row5, (if bool_decide (single = x) then upd ∪ mv_row mv else upd) = upd ∪ row5 /\ forall q, Qf s q -> row5 !! q = None) as (row5 & E5 & Hrow5).
  { destruct (bool_decide (single = x)); [exists (mv_row mv); split; [reflexivity|exact Hrow']|]. exists ∅. split; [by rewrite (right_id_L ∅ (∪))|]. intros q _. apply lookup_empty. }
  rewrite E5, Hfr in Hre. pose proof J as [JF JS JD JE _ _ _ _].
  destruct (updated rid build record_is_clean s fuel dm refs m WF Honce Hsh Hfaith Hdm Hrefs Hm c f k i init o g inds Ho Hi Hr Hinit Hinds D1 stored HD1 _ x upd JF JS JE Hu) as (rf & Hrf & HU).
  destruct (reenter_ok rid build record_is_clean s fuel dm refs m WF Honce Hfaith Hdm Hrefs Hm c f k i o to g Ho Hto Hi Hr D1 stored crp1 _ x upd row5 un5 r2 g5 J Hu Hrow5 Hre)
    as (F5 & S5 & E5' & X5 & A5 & R5 & C5 & D5 & rf' & Hrf' & Erf). assert (rf' = rf) as -> by congruence.
  assert (inv g5) as I5.
  { split; [apply F5|rewrite (proj1 (proj2 F5)); apply Hi|rewrite (hp_schema _ _ _ S5); apply Hi|done|eapply hstep_shaped; [exact S5|apply Hi]|eapply hstep_coded; [exact S5|apply Hi]|].
    intros q l w Hw%observed_qd HQ Hdir. rewrite D5, lookup_union in Hw by done. destruct (HU q HQ) as [U1 _].
    destruct (sd upd q !! l) as [w'|] eqn:Ew.
    - destruct (U1 l w' Ew) as (_ & _ & Hvec & _). specialize (Hvec (en_crps (g_ents g5))). rewrite <- Erf in Hvec. by destruct (g_ents g5).
    - destruct (decide (touched i (positions inds q) l)) as [HTl|HTl].
      + rewrite (proj1 (proj1 (HD1 q l HQ) HTl)) in Hw. done.
      + rewrite (proj1 (proj2 (HD1 q l HQ) HTl)) in Hw. destruct (fields_in rid build record_is_clean s m c f g inds Hi Hinds q HQ) as [t Ht].
        eapply (field_stable build record_is_clean s fuel dm refs m WF Honce Hsh Hfaith Hdm Hrefs Hm c f k i g inds Hr);
          [apply Hi|apply Hi|apply Hi|exact Hinds|exact HQ|exact Hdir|exact Ht|exact E5'|exact HTl|].
        destruct (qd (g_hirm g) q !! l) as [w0|] eqn:E0; [|done]. by eapply (obs_vec rid build record_is_clean s m g Hi). }
  split; [done| | |apply S5|apply F5|done|].
  - intros d ns n Hns Hn. rewrite (hp_schema _ _ _ S5). destruct F5 as (_ & _ & F3 & _). rewrite F3 in Hns. by eapply Hs.
  - intros q HQ j w. rewrite !cell_qd, D5 by done. destruct (HU q HQ) as [U1 U2]. split.
    + intros (l & Hl & Hlast). rewrite lookup_union in Hl. destruct (decide (touched i (positions inds q) l)) as [HTl|HTl].
      * rewrite (proj1 (proj1 (HD1 q l HQ) HTl)) in Hl. destruct (sd upd q !! l) as [w'|] eqn:Ew; [|done]. injection Hl as ->.
        destruct (U1 l w Ew) as (_ & _ & _ & l0 & _ & Hl0 & Hlast0). exists l0. split; [done|]. congruence.
      * rewrite (proj1 (proj2 (HD1 q l HQ) HTl)) in Hl. exists l. split; [|done]. destruct (sd upd q !! l) as [w'|] eqn:Ew.
        -- exfalso. apply HTl. by eapply U1.
        -- by destruct (qd (g_hirm g) q !! l).
    + intros (l & Hl & Hlast). destruct (decide (touched i (positions inds q) l)) as [HTl|HTl].
      * destruct (U2 l w HTl Hl) as (l' & Hl' & Hlast'). exists l'. split; [|congruence]. rewrite lookup_union, Hl'.
        destruct (U1 l' w Hl') as (HTl' & _). by rewrite (proj1 (proj1 (HD1 q l' HQ) HTl')).
      * exists l. split; [|done]. rewrite lookup_union, (proj1 (proj2 (HD1 q l HQ) HTl)), Hl. by destruct (sd upd q !! l).
  - exists k, init, x. split_and!; [done|done|done| |done|done].
    assert (x ∈ dom dist) as Hxd by (apply elem_of_dom, elem_of_sorted_keys; by eapply elem_of_list_lookup_2).
    destruct (gibbs_keys crp a init dist x Ha Hdist Hxd) as [Hus|Hlt].
    + left. apply set_choose_L in Hus as [id Hid]. apply elem_of_customers_at, Hcust in Hid as (c1 & f1 & i1 & H1 & H2 & _). eauto.
    + right. intros c1 f1 i1 y H1 H2. apply Hlt. assert (rid c1 f1 i1 ∈ customers_at a y) as Hin' by (apply elem_of_customers_at, Hcust; eauto 10).
      intros E. rewrite E in Hin'. by apply elem_of_empty in Hin'.
Qed.

(** Inference on the HIRM. *)
Lemma keeps_same (p : string -> Prop) (h h' : hirm V) : shaped h -> coded h -> hirm_keeps p h h' -> same_tuples h h'.
Proof.
  intros HS [_ HC] (K1 & K2 & K3 & K4 & K5). split_and!; [done|done|]. intros n. destruct (hirm_lookup h n) as [a|] eqn:Ea.
  - destruct (K5 n a Ea) as (a' & -> & [Hd _] & Hw). split; [done|]. destruct (HS n a Ea) as (t & Ht & Wt).
    destruct (Hw t Ht Wt) as (W1 & W2 & W3). destruct Wt as (T1 & T2 & T3). split_and!; [|done|done].
    assert (forall b x o, any_type (V:=V) x b = t_with (any_type x o) b) as E by (intros ? [] ?; reflexivity).
    rewrite (E true a' (t_observed t)), (E true a (t_observed t)). congruence.
  - destruct (hirm_lookup h' n) as [a'|] eqn:Ea'; [|done]. apply lookup_at in Ea' as (rc' & tb & Hrc & _). rewrite K2 in Hrc.
    destruct (HC n) as [a Ha]; [eauto|]. congruence.
Qed.
Lemma infer_life g lg o late k n r h' r' : (forall j, orders_ok (o j)) -> inv g -> inference_hirm lg o late k n (g_hirm g) r = Ok (h', r') ->
  hirm_keeps (latent_in (h_schema (g_hirm g))) (g_hirm g) h' /\ inv (g_set g (g_ents g) h').
Proof.
  intros Ho Hi H. pose proof Hi as [_ _ _ _ HS HC _]. apply inference_keeps in H; [|done|exact (proj1 HC)]. split; [done|].
  apply (infer_ok rid build s m vec); [done|]. by eapply keeps_same.
Qed.
Lemma infer_cells g h' : marks_observed build -> inv g -> hirm_keeps (latent_in (h_schema (g_hirm g))) (g_hirm g) h' -> same_cells s g (g_set g (g_ents g) h').
Proof.
  intros HM Hi (K1 & K2 & K3 & K4 & K5) q HQ k v. rewrite !cell_qd. cbn [g_set g_hirm].
  assert (qd h' q = qd (g_hirm g) q) as ->; [|done]. pose proof Hi as [_ _ Hh _ HS HC _].
  assert (~ latent_in (h_schema (g_hirm g)) q) as Hl.
  { intros (t & Ht & Hf). destruct (declared_here build m g Hh q t Ht) as (d & Hd & ->). rewrite HM in Hf.
    rewrite (field_observed record_is_clean s fuel dm refs m WF Honce Hdm Hrefs Hm q d Hd HQ) in Hf. done. }
  unfold qd. destruct (hirm_lookup (g_hirm g) q) as [a|] eqn:Ea.
  - destruct (K5 q a Ea) as (a' & -> & [_ He] & _). cbn. by apply He.
  - destruct (hirm_lookup h' q) as [a'|] eqn:Ea'; [|done]. exfalso. apply lookup_at in Ea' as (rc' & tb & Hrc & _). rewrite K2 in Hrc.
    destruct (proj2 HC q) as [a Ha]; [eauto|]. congruence.
Qed.
End Made.

(** Every state. *)
Lemma push_sound (sch : gmap string (t_rel V)) : forall l m0 m1, foldM (push_relation sch) m0 l = Ok m1 ->
  (forall c ns n, m0 !! c = Some ns -> n ∈ ns -> exists t, sch !! n = Some t /\ last (t_domains t) = Some c) ->
  forall c ns n, m1 !! c = Some ns -> n ∈ ns -> exists t, sch !! n = Some t /\ last (t_domains t) = Some c.
Proof.
  induction l as [|a l IH]; intros m0 m1 H H0; cbn [foldM] in H; [by injection H as <-|].
  apply obind_Ok in H as (m2 & Hp & H). eapply IH; [exact H|]. unfold push_relation in Hp. apply obind_Ok in Hp as (t & Ht%at_Ok & Hp).
  apply obind_Ok in Hp as (d & Hd%idx_Ok & Hp). injection Hp as <-. intros c ns n Hns Hn. apply lookup_insert_Some in Hns as [[<- <-]|[_ Hns]]; [|by eapply H0].
  apply elem_of_app in Hn as [Hn|Hn%elem_of_list_singleton]; [|subst n; eauto].
  destruct (m0 !! d) as [ns|] eqn:E; [by eapply H0|by apply elem_of_nil in Hn].
Qed.
Lemma life_inv show g : gendb_life rid build show false record_is_clean s g -> exists fuel dm refs m,
  compute_domains fuel cs = Ok dm /\ compute_refs fuel cs dm = Ok refs /\ make_hirm_schema false record_is_clean s dm refs = Ok m /\
  ginv rid build s m vec g /\ rels_sound g.
Proof.
  induction 1 as [fuel r g r' H|g unique i vals r g' r' _ IH H|g i r vals g' r' _ IH H|g lg o late k n r h' r' _ IH Ho H|g o to c f i r r2 g' r' _ IH Ho Hto Hc H].
  - unfold gendb_new in H. apply obind_Ok in H as (dm & Hdm & H). apply obind_Ok in H as (refs & Hrefs & H). apply obind_Ok in H as (m & Hm & H).
    apply obind_Ok in H as ([h r1] & Hh & H). apply obind_Ok in H as (rels & Hrels & H). injection H as <- <-.
    exists fuel, dm, refs, m. split_and!; [done|done|done| |].
    + destruct (new_inv rid build false record_is_clean s fuel m r h r1 rels Hh) as [I1 I2 I3 I4 I5 I6 I7]. split; [done|done|done|done|done|done|].
      intros n l v Hv. exfalso. cbn [g_hirm] in Hv. apply hirm_new_blank in Hh as [Hb _]. destruct Hv as (a & Ha & Hl).
      rewrite (bl_nothing _ Hb n a Ha) in Hl. by rewrite lookup_empty in Hl.
    + intros c ns n. cbn [g_rels g_hirm]. eapply push_sound; [exact Hrels|]. intros ? ? ? Hx. by rewrite lookup_empty in Hx.
  - destruct IH as (fuel & dm & refs & m & Hdm & Hrefs & Hm & Hg & Hr). exists fuel, dm, refs, m.
    destruct (inc_life fuel dm refs m Hdm Hrefs Hm _ _ _ _ _ _ _ Hg H) as (Hg' & [S1 S2 _ _] & _). split_and!; [done|done|done|done|].
    intros c ns n. rewrite S1, S2. apply Hr.
  - destruct IH as (fuel & dm & refs & m & Hdm & Hrefs & Hm & Hg & Hr). exists fuel, dm, refs, m.
    destruct (sample_life fuel dm refs m Hdm Hrefs Hm show _ _ _ _ _ _ Hg H) as (Hg' & [S1 S2 _ _] & _). split_and!; [done|done|done|done|].
    intros c ns n. rewrite S1, S2. apply Hr.
  - destruct IH as (fuel & dm & refs & m & Hdm & Hrefs & Hm & Hg & Hr). exists fuel, dm, refs, m.
    destruct (infer_life m g lg o late k n r h' r' Ho Hg H) as [HK Hg']. split_and!; [done|done|done|done|].
    intros c ns n'. cbn [g_set g_rels g_hirm]. rewrite (proj1 HK). apply Hr.
  - destruct IH as (fuel & dm & refs & m & Hdm & Hrefs & Hm & Hg & Hr). exists fuel, dm, refs, m.
    destruct (transition_ok fuel dm refs m Hdm Hrefs Hm o to g c f i r r2 g' r' Ho Hto Hg Hr Hc H) as [M1 M2 _ _ _ _ _]. done.
Qed.
End Life.
