(** Resampling a reference: the loop over the candidates. *)
From Coq Require Import String Ascii.
From stdpp Require Import gmap strings list sorting relations.
From Coq Require Import ZArith Reals Lia.
From Verif Require Import M_base M_math M_crp M_domain M_dist M_relation M_noisy M_irm M_logp M_hirm M_inference M_schema M_pclean_io M_gendb M_gendb_rels
  M_gendb_state M_pclean M_gendb_trans
  S_crp S_crp_state S_irm S_hirm S_gendb S_gendb_rels S_gendb_state S_gendb_life P_base P_crp P_irm_schema P_gendb P_gendb_links P_gendb_rels T_gendb_rels P_gendb_ents
  P_gendb_fill P_gendb_data P_gendb_blank P_gendb_vec P_gendb_reach T_gendb_state T_gendb_rows P_gendb_trans P_gendb_move P_gendb_life.
Local Open Scope nat_scope.

Section Keep.
Context {V : Type} (rid : hash_fn) (build : hdecl -> t_rel V) (record_is_clean : bool) (s : pschema) (fuel : nat)
  (dm : gmap string (list string)) (refs : gmap string links) (m : made).
Hypotheses (WF : well_formed s) (Honce : record_is_clean = true -> record_queried_once s) (Hsh : forall c, shallow (ps_classes s) c)
  (Hfaith : faithful build)
  (Hdm : compute_domains fuel (ps_classes s) = Ok dm) (Hrefs : compute_refs fuel (ps_classes s) dm = Ok refs)
  (Hm : make_hirm_schema false record_is_clean s dm refs = Ok m).
Notation cs := (ps_classes s).
Notation fields := (pq_fields (ps_query s)).
Notation rc := (pq_record (ps_query s)).
Notation store := (gmap string (gmap items_t V)).
Notation Qf := (Qf s).
Notation inv := (ginv rid build s m (vec record_is_clean s)).
(** Every relation listed for a class has that class last. *)
Definition rels_sound (g : gendb V) : Prop := forall c ns n, g_rels g !! c = Some ns -> n ∈ ns ->
  exists t, h_schema (g_hirm g) !! n = Some t /\ last (t_domains t) = Some c.

Variables (c f k : string) (i init : Z) (o : orders) (to : torders) (g0 : gendb V) (inds : gmap string (list nat)).
Hypotheses (Ho : orders_ok o) (Hto : torders_ok to) (Hi0 : inv g0) (Hs0 : rels_sound g0) (Hc : rtc (references cs) rc c) (Hr : refers cs c f k)
  (Hinit : recorded (g_ents g0) c f i init) (Hinds : domain_inds g0 c f = Ok inds).
Notation e0 := (g_ents g0).
Notation T q := (touched i (positions inds q)).

Lemma acyclic d : ~ tc (references cs) d d.
Proof. apply (computed_facts s fuel dm refs (wf_closed s WF) Hdm Hrefs). Qed.
Lemma ref_step : references cs c k.
Proof. destruct Hr as (cl & Hcl & Hf). by exists f, cl. Qed.
Lemma k_not_c : ~ rtc (references cs) k c.
Proof. intros H. apply (acyclic c). eapply tc_rtc_r; [apply tc_once, ref_step|done]. Qed.
Lemma k_not_record : k <> rc.
Proof. intros E. apply k_not_c. rewrite E. exact Hc. Qed.
Lemma listed_not_field (h : hirm V) ns n : h_schema h = h_schema (g_hirm g0) -> g_rels g0 !! k = Some ns -> n ∈ ns -> ~ Qf n.
Proof.
  intros Eh Hns Hn HQ. destruct (Hs0 k ns n Hns Hn) as (t & Ht & Hl).
  destruct (declared_here build m g0 (gi_hschema _ _ _ _ _ _ Hi0) n t Ht) as (d & Hd & ->). rewrite (proj1 (Hfaith d)) in Hl.
  rewrite (field_last record_is_clean s fuel dm refs m WF Honce Hdm Hrefs Hm n d Hd HQ) in Hl. apply k_not_record. congruence.
Qed.
Lemma fields_in q : Qf q -> exists t, h_schema (g_hirm g0) !! q = Some t.
Proof.
  intros HQ. pose proof Hinds as H. unfold domain_inds in H. rewrite (gi_schema _ _ _ _ _ _ Hi0) in H.
  assert (q ∈ sorted_names fields) as Hin by (apply elem_of_sorted_names; done). revert Hin H. generalize (∅ : gmap string (list nat)).
  induction (sorted_names fields) as [|n l IH]; intros acc Hin H; [by apply elem_of_nil in Hin|]. cbn [foldM] in H. apply obind_Ok in H as (acc1 & H1 & H).
  apply elem_of_cons in Hin as [->|Hin]; [|by eapply IH]. apply obind_Ok in H1 as (t & Ht%at_Ok & _). eauto.
Qed.
Lemma obs_vec q l v : Qf q -> direct record_is_clean s q -> qd (g_hirm g0) q !! l = Some v -> relation_vector s e0 q l.
Proof.
  intros HQ Hd Hl. unfold qd in Hl. destruct (hirm_lookup (g_hirm g0) q) as [a|] eqn:Ea; [|cbn in Hl; by rewrite lookup_empty in Hl]. cbn in Hl.
  apply (gi_data _ _ _ _ _ _ Hi0 q l v); [by exists a|done|done].
Qed.
Definition frame (g : gendb V) : Prop := g_schema g = s /\ g_links g = g_links g0 /\ g_rels g = g_rels g0 /\ g_fuel g = g_fuel g0.
Lemma frame_set g e h : frame g -> frame (g_set g e h). Proof. done. Qed.

(** ** What was taken out *)
Variables (D1 : string -> gmap items_t V) (stored : store).
Hypotheses
  (HD1 : forall q l, Qf q -> (T q l -> D1 q !! l = None /\ sd stored q !! l = qd (g_hirm g0) q !! l) /\
    (~ T q l -> D1 q !! l = qd (g_hirm g0) q !! l /\ sd stored q !! l = None)).

Lemma updated g x upd : frame g -> hstep (fun _ => False) (g_hirm g0) (g_hirm g) -> except c f i e0 (g_ents g) ->
  update_reference_items o g stored c f i x = Ok upd -> exists rf, set_reference (en_refs (g_ents g)) c f i x = Ok rf /\
  forall q, Qf q ->
    (forall l' v, sd upd q !! l' = Some v -> T q l' /\ direct record_is_clean s q /\ (forall crps, relation_vector s (Ents rf crps) q l') /\
       exists l, T q l /\ qd (g_hirm g0) q !! l = Some v /\ last l = last l') /\
    (forall l v, T q l -> qd (g_hirm g0) q !! l = Some v -> exists l', sd upd q !! l' = Some v /\ last l' = last l).
Proof.
  intros (F1 & F2 & F3 & F4) HS HE H. apply update_items_ok in H as (rf & Hrf & HU); [|done]. exists rf. split; [done|]. intros q HQ.
  destruct (fields_in q HQ) as [t Ht]. destruct (HU q t) as [U1 U2]; [by rewrite (hp_schema _ _ _ HS)|].
  assert (links_of g q = links_of g0 q) as El by (unfold links_of; by rewrite F2). rewrite El in U1, U2. clear El.
  assert (forall l j l', sd stored q !! l <> None -> last l = Some j -> items_for rf (t_domains t) (links_of g0 q) j = Ok l' ->
     T q l /\ direct record_is_clean s q /\ (forall crps, relation_vector s (Ents rf crps) q l') /\ last l' = Some j) as Hit.
  { intros l j l' Hl Hj Hx. assert (T q l) as HT. { destruct (decide (T q l)) as [|HT]; [done|]. exfalso. apply Hl. by apply (HD1 q l HQ). }
    assert (direct record_is_clean s q) as Hdir.
    { eapply (touched_not_direct build record_is_clean s fuel dm refs m WF Honce Hdm Hrefs Hm c f i g0 inds); [apply Hi0|apply Hi0|exact Hinds|exact HQ|exact Ht|exact HT]. }
    split; [done|]. split; [done|].
    assert (forall crps, relation_vector s (Ents rf crps) q l' /\ last l' = Some j) as Hb.
    { intros crps. eapply (items_field rid build record_is_clean s fuel dm refs m WF Honce Hsh Hfaith Hdm Hrefs Hm g0); [apply Hi0|apply Hi0|done|done|exact Ht| |exact Hx]. done. }
    split; [intros crps; apply Hb|]. apply (Hb ∅). }
  assert (forall l' v, sd upd q !! l' = Some v -> T q l' /\ direct record_is_clean s q /\ (forall crps, relation_vector s (Ents rf crps) q l') /\
       exists l, T q l /\ qd (g_hirm g0) q !! l = Some v /\ last l = last l') as HA.
  { intros l' v Hl'. destruct (U2 l' v Hl') as (l & j & Hl & Hj & Hx). destruct (Hit l j l') as (HT & Hdir & Hv & Hlast); [congruence|done|done|].
    destruct (HD1 q l HQ) as [HD _]. destruct (HD HT) as [_ Hst]. rewrite Hst in Hl.
    split_and!; [|done|done|exists l; split_and!; [done|done|congruence]].
    destruct (decide (T q l')) as [|HT']; [done|]. exfalso. apply HT'.
    (* the entities with the old reference put back *)
    assert (exists rf2, set_reference (en_refs (g_ents g)) c f i init = Ok rf2) as [rf2 Hrf2].
    { clear -Hrf. unfold set_reference in *. apply obind_Ok in Hrf as (m0 & Hm0 & _). rewrite Hm0. cbn [obind]. eauto. }
    assert (ents_grow e0 (Ents rf2 ∅)) as Hgrow.
    { intros c' f' i' y Hy. apply (set_recorded (g_ents g) c f i init rf2 ∅ Hrf2). destruct (decide ((c', f', i') = (c, f, i))) as [[= -> -> ->]|Hne].
      - left. f_equal. exact (recorded_fun _ _ _ _ _ _ Hy Hinit).
      - right. split; [done|]. by apply HE. }
    assert (except c f i (Ents rf ∅) (Ents rf2 ∅)) as Hex.
    { eapply except_trans; [apply (set_except (g_ents g) c f i x rf ∅ Hrf)|apply (set_except (g_ents g) c f i init rf2 ∅ Hrf2)]. }
    assert (relation_vector s (Ents rf2 ∅) q l') as V1.
    { eapply (field_stable build record_is_clean s fuel dm refs m WF Honce Hsh Hfaith Hdm Hrefs Hm c f k i g0 inds Hr);
        [apply Hi0|apply Hi0|apply Hi0|exact Hinds|exact HQ|exact Hdir|exact Ht|exact Hex|exact HT'|apply Hv]. }
    assert (relation_vector s (Ents rf2 ∅) q l) as V2.
    { eapply relation_vector_grow; [exact Hgrow|]. by eapply obs_vec. }
    assert (l' = l) as ->; [|done].
    eapply (field_vector_det false record_is_clean s fuel dm refs m WF Honce Hsh Hdm Hrefs Hm (Ents rf2 ∅) q l l' HQ); [congruence|exact V2|exact V1]. }
  split; [done|]. intros l v HT Hl. destruct (HD1 q l HQ) as [HD _]. destruct (HD HT) as [_ Hst].
  destruct (U1 l v) as (j & l' & Hj & Hx & [v' Hv']); [congruence|]. destruct (Hit l j l') as (_ & Hdir & Hv & Hlast); [congruence|done|done|].
  destruct (HA l' v' Hv') as (_ & _ & _ & l2 & HT2 & Hl2 & Hlast2). exists l'. split; [|congruence].
  assert (l2 = l) as ->; [|congruence].
  eapply (field_vector_det false record_is_clean s fuel dm refs m WF Honce Hsh Hdm Hrefs Hm e0 q l l2 HQ); [congruence|by eapply obs_vec|by eapply obs_vec].
Qed.

(** ** The loop *)
Variables (crp1 : crp).
Record jinv (g : gendb V) : Prop := {
  j_frame : frame g;
  j_step : hstep (fun _ => False) (g_hirm g0) (g_hirm g);
  j_data : forall q, Qf q -> qd (g_hirm g) q = D1 q;
  j_except : except c f i e0 (g_ents g);
  j_crp : en_crps (g_ents g) !! k = Some crp1;
  j_agree : ents_agree rid cs (erase c f i (g_ents g));
  j_refs : forall d, d <> c -> ~ rtc (references cs) k d -> en_refs (g_ents g) !! d = en_refs e0 !! d;
  j_crps : forall d, d <> k -> ~ tc (references cs) k d -> en_crps (g_ents g) !! d = en_crps e0 !! d;
}.
Lemma jinv_set g x rf : jinv g -> set_reference (en_refs (g_ents g)) c f i x = Ok rf -> jinv (g_set g (Ents rf (en_crps (g_ents g))) (g_hirm g)).
Proof.
  intros [A1 A2 A3 A4 A5 A6 A7 A8] H. split; cbn [g_set g_hirm g_ents en_refs en_crps]; try done.
  - eapply except_trans; [exact A4|]. apply (set_except _ _ _ _ _ _ _ H).
  - rewrite (erase_set c f i (g_ents g) x rf H). exact A6.
  - intros d Hd Hn. rewrite <- A7 by done. unfold set_reference in H. apply obind_Ok in H as (m0 & _ & [= <-]). by rewrite lookup_insert_ne.
Qed.
Lemma jinv_hirm g h : jinv g -> hstep Qf (g_hirm g) h -> jinv (g_set g (g_ents g) h).
Proof.
  intros [A1 A2 A3 A4 A5 A6 A7 A8] H. split; cbn [g_set g_hirm g_ents]; try done.
  - eapply hstep_trans; [exact A2|]. eapply hstep_weaken; [|exact H]. done.
  - intros q HQ. rewrite (hp_data _ _ _ H q HQ). auto.
Qed.
Lemma j_bases g : jinv g -> bases_ok Qf (h_schema (g_hirm g)).
Proof.
  intros J. rewrite (hp_schema _ _ _ (j_step g J)).
  apply (bases_here build record_is_clean s fuel dm refs m WF Honce Hfaith Hdm Hrefs Hm g0). apply Hi0.
Qed.
(** The row of a new entity. *)
Lemma new_row_ok g x r g' r' : jinv g -> new_row rid g k x r = Ok (g', r') -> jinv g' /\
  forall y, recorded (g_ents g) c f i y -> recorded (g_ents g') c f i y.
Proof.
  intros J H. pose proof J as [(A1 & F2 & F3 & F4) A2 A3 A4 A5 A6 A7 A8]. unfold new_row in H. rewrite A1 in H.
  apply obind_Ok in H as ([[l e] r1] & Ha & H). apply obind_Ok in H as (ns & Hns%at_Ok & H). apply obind_Ok in H as ([h r2] & Hn & H). injection H as <- <-.
  pose proof (class_ancestors_ok rid cs _ _ _ _ _ _ _ _ Ha) as [[_ Sg] _].
  destruct (class_ancestors_erase rid cs c f i _ _ _ _ _ _ _ _ k_not_c Ha) as (He & R1 & R2). apply class_ancestors_ok in He as [[Sa _] _].
  rewrite F3 in Hns.
  assert (hstep Qf (g_hirm g) h) as HS.
  { eapply new_rows_ok; [|by apply j_bases|exact Hn]. intros n Hnn. by eapply listed_not_field. }
  split; [|intros y; apply Sg]. split; cbn [g_set g_hirm g_ents].
  - by split_and!.
  - eapply hstep_trans; [exact A2|]. eapply hstep_weaken; [|exact HS]. done.
  - intros q HQ. rewrite (hp_data _ _ _ HS q HQ). auto.
  - eapply except_trans; [exact A4|]. by apply grow_except.
  - rewrite R2; [done|]. apply acyclic.
  - by apply Sa.
  - intros d Hd Hnr. rewrite R1 by done. auto.
  - intros d Hd Hnr. rewrite R2 by done. auto.
Qed.
(** An entity without references is left. *)
Lemma leave_top n lp e ue lp' e' ue' x crp : leave_entity n rid cs true c i (lp, e, ue) f = Ok (lp', e', ue') ->
  recorded e c f i x -> en_crps e !! k = Some crp -> x ∉ dom (crp_tables crp) -> e' = e /\ ue' = ue.
Proof.
  destruct n as [|n]; [done|]. intros H (mm & Hmm & Hx) Hk Hd. cbn [leave_entity] in H. unfold reference_value in H. rewrite Hmm in H. cbn [at_ obind] in H.
  rewrite Hx in H. cbn [at_ obind] in H. destruct Hr as (cl & Hcl & Hf). rewrite Hcl in H. cbn [at_ obind] in H. rewrite Hf in H. cbn [at_ obind] in H.
  rewrite Hk in H. cbn [at_ obind] in H. rewrite bool_decide_false in H by done. injection H as _ <- <-. split; [|done].
  destruct e. cbn in *. by rewrite insert_id.
Qed.
Lemma singleton_ok g row un ue lp g' row' un' ue' x : jinv g -> recorded (g_ents g) c f i x -> x ∉ dom (crp_tables crp1) ->
  (forall q, Qf q -> row !! q = None) ->
  unincorporate_singleton rid o g c f i k row un ue = Ok (lp, g', row', un', ue') ->
  jinv g' /\ g_ents g' = g_ents g /\ ue' = ue /\ forall q, Qf q -> row' !! q = None.
Proof.
  intros J Hx Hd Hrow H. pose proof J as [(A1 & F2 & F3 & F4) A2 A3 A4 A5 A6 A7 A8]. unfold unincorporate_singleton in H.
  apply obind_Ok in H as (y & _ & H). apply obind_Ok in H as ([[lp1 e] ue1] & Hl & H). rewrite A1 in Hl.
  eapply leave_top in Hl as [-> ->]; [|done|done|done].
  apply obind_Ok in H as (ns & Hns%at_Ok & H). apply obind_Ok in H as ([[lp2 h] st] & Hs & H). apply obind_Ok in H as ([[lp3 h3] un3] & Hl3 & H).
  injection H as _ <- <- <- <-. rewrite F3 in Hns.
  apply (single_drops_ok Qf) in Hs as [S1 S2]; [|intros n Hn; by eapply listed_not_field|by apply j_bases].
  apply (single_leaves_ok Qf) in Hl3. split_and!; [|done|done|].
  - apply (jinv_hirm g h3 J). by eapply hstep_trans.
  - intros q HQ. rewrite S2 by done. auto.
Qed.
(** The observations come and go. *)
Lemma come_and_go g upd x un r h r' lp g' st' un' : jinv g -> recorded (g_ents g) c f i x -> update_reference_items o g stored c f i x = Ok upd ->
  incorporate_reference o (g_hirm g) upd r = Ok (h, r') ->
  unincorporate_reference o (g_set g (g_ents g) h) inds c f i upd un = Ok (lp, g', st', un') ->
  jinv g' /\ g_ents g' = g_ents g.
Proof.
  intros J Hx Hu Hi Hd. pose proof J as [A1 A2 A3 A4 A5 A6 A7 A8].
  destruct (updated g x upd A1 A2 A4 Hu) as (rf & Hrf & HU).
  destruct (incorporate_reference_ok Qf (Qf_dec s) o _ _ _ _ _ Ho (j_bases g J) Hi) as [S1 D2].
  apply (unincorporate_reference_ok Qf) in Hd as (E & S2 & HT); cbn [g_set g_hirm]; [|done|by rewrite (hp_schema _ _ _ S1); apply j_bases| |].
  2: { eapply hstep_shaped; [exact S1|]. eapply hstep_shaped; [exact A2|]. apply Hi0. }
  2: { rewrite (hp_schema _ _ _ S1), (hp_schema _ _ _ A2). eapply inds_here; [apply Hi0|exact Hinds]. }
  cbn [g_set g_hirm g_ents] in E, S2, HT. rewrite E. split; [|done]. split; cbn [g_set g_hirm g_ents]; try done.
  - eapply hstep_trans; [exact A2|]. by eapply hstep_trans.
  - intros q HQ. apply map_eq. intros l. specialize (HT q HQ l) as [HT1 HT2]. rewrite D2, A3 in HT1, HT2 by done. destruct (HU q HQ) as [U1 U2].
    destruct (decide (T q l)) as [HTl|HTl].
    + destruct (proj1 (HD1 q l HQ) HTl) as [Hn _]. rewrite Hn. destruct ((D1 q ∪ sd upd q) !! l) as [v|] eqn:El.
      * apply HT1; [done|eauto].
      * destruct HT2 as [HT2 _]; [by right|]. done.
    + destruct HT2 as [HT2 _]; [by left|]. rewrite HT2, lookup_union. destruct (sd upd q !! l) as [v|] eqn:Ev; [|by destruct (D1 q !! l)].
      exfalso. apply HTl. by eapply U1.
Qed.

Record minv (single : Z) (mv : moving (V := V)) : Prop := {
  m_j : jinv (mv_g mv);
  m_row : forall q, Qf q -> mv_row mv !! q = None;
  m_freed : mv_freed mv = ∅;
}.
Lemma try_entity_ok single lp0 dist mv x mv' : single ∉ dom (crp_tables crp1) -> minv single mv ->
  try_entity rid o inds c f i k init single stored lp0 dist mv x = Ok mv' -> minv single mv'.
Proof.
  intros Hsg [J Hrow Hfr] H. unfold try_entity in H. apply obind_Ok in H as (w & _ & H). apply obind_Ok in H as (y & _ & H).
  apply obind_Ok in H as (rf & Hrf & H). pose proof (jinv_set _ x rf J Hrf) as J1.
  assert (recorded (Ents rf (en_crps (g_ents (mv_g mv)))) c f i x) as Hx by (apply (set_recorded _ _ _ _ _ _ _ Hrf); by left).
  case_bool_decide as Hxi; [injection H as <-; by split|].
  apply obind_Ok in H as ([g1 r1] & H1 & H).
  assert (jinv g1 /\ recorded (g_ents g1) c f i x) as [J2 Hx2].
  { case_bool_decide as Hxs; [|by injection H1 as <- <-]. apply new_row_ok in H1 as [? Hg]; [|done]. split; [done|]. by apply Hg. }
  apply obind_Ok in H as (upd & Hu & H). apply obind_Ok in H as ([h r2] & Hin & H). apply obind_Ok in H as ([[[lp g2] st2] un2] & Hd & H).
  destruct (come_and_go _ _ _ _ _ _ _ _ _ _ _ J2 Hx2 Hu Hin Hd) as [J3 E3].
  case_bool_decide as Hxs; [|injection H as <-; by split].
  apply obind_Ok in H as ([[[[lp' g3] row] un3] ue] & Hs & H). injection H as <-.
  apply (singleton_ok _ _ _ _ _ _ _ _ _ x) in Hs as (J4 & _ & -> & Hrow'); [|done|by rewrite E3|by subst x|done]. by split.
Qed.

(** ** The end *)
Lemma reenter_ok g x upd row un r2 g' : jinv g -> update_reference_items o g stored c f i x = Ok upd -> (forall q, Qf q -> row !! q = None) ->
  reincorporate_new_refval rid o to g c f i x k (upd ∪ row) un ∅ r2 = Ok g' ->
  frame g' /\ hstep (fun _ => False) (g_hirm g0) (g_hirm g') /\ except c f i e0 (g_ents g') /\ recorded (g_ents g') c f i x /\
  ents_agree rid cs (g_ents g') /\
  (forall d, d <> c -> ~ rtc (references cs) k d -> en_refs (g_ents g') !! d = en_refs e0 !! d) /\
  (forall d, d <> k -> ~ tc (references cs) k d -> en_crps (g_ents g') !! d = en_crps e0 !! d) /\
  (forall q, Qf q -> qd (g_hirm g') q = D1 q ∪ sd upd q) /\
  exists rf, set_reference (en_refs (g_ents g)) c f i x = Ok rf /\ en_refs (g_ents g') = rf.
Proof.
  intros J Hu Hrow H. pose proof J as [A1 A2 A3 A4 A5 A6 A7 A8]. unfold reincorporate_new_refval in H.
  apply obind_Ok in H as ([h r] & Hse & H). apply obind_Ok in H as (y & _ & H). apply obind_Ok in H as (rf & Hrf & H).
  cbn [en_crps en_refs] in H. rewrite A5 in H. cbn [at_ obind] in H. apply obind_Ok in H as (e & He & H).
  assert (to_freed to (dom (∅ : freed)) = []) as Efr.
  { rewrite dom_empty_L. destruct Hto as (_ & Hto' & _). pose proof (Hto' ∅) as Hp. rewrite elements_empty in Hp. by apply Permutation_nil_r in Hp. }
  rewrite Efr in He. cbn [foldM] in He.
  assert (e = Ents rf (en_crps (g_ents g))) as -> by (case_bool_decide; by injection He as <-). cbn [en_crps en_refs] in H. rewrite A5 in H. cbn [at_ obind] in H.
  apply obind_Ok in H as (crp2 & Hc2 & H). apply obind_Ok in H as ([h2 r3] & Hin & H). apply obind_Ok in H as (h3 & Hcl & H). injection H as <-.
  apply (enter_seats_ok Qf) in Hse.
  assert (bases_ok Qf (h_schema h)) as HB by (rewrite (hp_schema _ _ _ Hse); by apply j_bases).
  destruct (incorporate_reference_ok Qf (Qf_dec s) o _ _ _ _ _ Ho HB Hin) as [S1 D2]. apply (hirm_cleanup_ok Qf) in Hcl.
  cbn [g_set g_hirm g_ents en_refs en_crps]. split_and!.
  - by apply frame_set.
  - eapply hstep_trans; [exact A2|]. eapply hstep_trans; [eapply hstep_weaken; [|exact Hse]; done|]. eapply hstep_trans; [exact S1|].
    eapply hstep_weaken; [|exact Hcl]. done.
  - eapply except_trans; [exact A4|]. apply (set_except _ _ _ _ _ _ _ Hrf).
  - apply (set_recorded _ _ _ _ _ _ _ Hrf). by left.
  - by eapply erase_put.
  - intros d Hd Hn. rewrite <- A7 by done. unfold set_reference in Hrf. apply obind_Ok in Hrf as (m0 & _ & [= <-]). by rewrite lookup_insert_ne.
  - intros d Hd Hn. rewrite lookup_insert_ne by done. auto.
  - intros q HQ. rewrite (hp_data _ _ _ Hcl q HQ), D2, (hp_data _ _ _ Hse q HQ), A3 by done. f_equal.
    apply sd_eq. rewrite lookup_union, Hrow by done. by destruct (upd !! q).
  - exists rf. done.
Qed.
End Keep.
