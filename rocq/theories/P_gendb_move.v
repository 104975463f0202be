(** Entities, references and item vectors when one reference changes. *)
From Coq Require Import String Ascii.
From stdpp Require Import gmap strings list sorting relations.
From Coq Require Import ZArith Reals Lia.
From Verif Require Import M_base M_math M_crp M_domain M_dist M_relation M_noisy M_irm M_logp M_hirm M_inference M_schema M_pclean_io M_gendb M_gendb_rels
  M_gendb_state M_pclean M_gendb_trans
  S_crp S_crp_state S_irm S_hirm S_gendb S_gendb_rels S_gendb_state P_base P_crp P_crp_score P_irm_schema P_gendb P_gendb_rels P_gendb_links P_gendb_ents P_gendb_fill P_gendb_vec.
Local Open Scope nat_scope.

(** Every recorded reference but field [f] of entity [i] of class [c] is kept. *)
Definition except (c f : string) (i : Z) (e e' : ents) : Prop := forall c' f' i' x, (c', f', i') <> (c, f, i) -> recorded e c' f' i' x -> recorded e' c' f' i' x.
Lemma except_refl c f i e : except c f i e e. Proof. by intros ?????. Qed.
Lemma except_trans c f i e1 e2 e3 : except c f i e1 e2 -> except c f i e2 e3 -> except c f i e1 e3.
Proof. intros H1 H2 c' f' i' x Hne H. apply H2; [done|]. by apply H1. Qed.
Lemma grow_except c f i e e' : ents_grow e e' -> except c f i e e'.
Proof. intros H c' f' i' x _. apply H. Qed.
Lemma set_recorded e c f i x refs crps : set_reference (en_refs e) c f i x = Ok refs ->
  forall c' f' i' y, recorded (Ents refs crps) c' f' i' y <-> ((c', f', i', y) = (c, f, i, x) \/ ((c', f', i') <> (c, f, i) /\ recorded e c' f' i' y)).
Proof.
  unfold set_reference. intros H. apply obind_Ok in H as (m & Hm%at_Ok & [= <-]). intros c' f' i' y. unfold recorded. cbn [en_refs]. split.
  - intros (m' & Hm' & Hy). apply lookup_insert_Some in Hm' as [[<- <-]|[Hne Hm']].
    + apply lookup_insert_Some in Hy as [[[= -> ->] <-]|[Hne Hy]]; [by left|right]. split; [congruence|eauto].
    + right. split; [congruence|eauto].
  - intros [[= -> -> -> ->]|[Hne (m' & Hm' & Hy)]].
    + eexists. rewrite lookup_insert. split; [done|]. by rewrite lookup_insert.
    + destruct (decide (c' = c)) as [->|].
      * assert (m' = m) as -> by congruence. eexists. rewrite lookup_insert. split; [done|]. rewrite lookup_insert_ne; [done|]. congruence.
      * exists m'. by rewrite lookup_insert_ne.
Qed.
Lemma set_except e c f i x refs crps : set_reference (en_refs e) c f i x = Ok refs -> except c f i e (Ents refs crps) /\ except c f i (Ents refs crps) e.
Proof.
  intros H. pose proof (set_recorded e c f i x refs crps H) as HR. split; intros c' f' i' y Hne Hy; [apply HR; by right|].
  apply HR in Hy as [[= -> -> -> ->]|[_ Hy]]; done.
Qed.
Lemma recorded_refs e e' c f i x : en_refs e' = en_refs e -> recorded e c f i x -> recorded e' c f i x.
Proof. unfold recorded. by intros ->. Qed.

(** ** Item vectors that do not go through the reference *)
Section Stable.
Variables (s : pschema) (c f : string) (i : Z) (e e' : ents).
Notation cs := (ps_classes s).
Hypothesis (HE : except c f i e e').
Lemma class_vector_stable :
  (forall c0 i0 l, class_vector cs e c0 i0 l -> forall ds, domain_list cs c0 ds -> (forall p, ds !! p = Some c -> l !! p <> Some i) -> class_vector cs e' c0 i0 l) /\
  (forall c0 i0 fks ls, class_vectors cs e c0 i0 fks ls -> forall ds, field_lists cs fks ds -> (forall p, ds !! p = Some c -> concat ls !! p <> Some i) ->
     (c0 = c -> i0 <> i) -> class_vectors cs e' c0 i0 fks ls).
Proof.
  apply class_vector_mut.
  - intros c0 cl i0 fks ls Hc Hf Hv IH ds H Hno. inversion H as [c' cl' ds1 Hc' Hl]; subst. assert (cl' = cl) as -> by congruence.
    pose proof (reference_fields_unique _ _ Hf) as Ef. rewrite <- Ef in Hl. pose proof (proj2 (class_vector_lengths s e) _ _ _ _ Hv _ Hl) as Hlen.
    econstructor; [done|done|]. eapply IH; [exact Hl| |].
    + intros p Hp. pose proof (lookup_lt_Some _ _ _ Hp) as Hlt. specialize (Hno p). rewrite !lookup_app_l in Hno by lia. auto.
    + intros -> ->. apply (Hno (length ds1)); [by apply list_lookup_middle|]. rewrite <- Hlen. by apply list_lookup_middle.
  - intros. constructor.
  - intros c0 i0 f0 k x l fks ls Hr Hv IH1 Hvs IH2 ds H Hno Hi. inversion H as [|? ? ? d ds' Hd Hds]; subst. cbn [concat] in Hno.
    pose proof (proj1 (class_vector_lengths s e) _ _ _ Hv _ Hd) as Hlen. constructor 2 with (x := x).
    + apply HE; [|done]. intros [= -> -> ->]. by apply Hi.
    + eapply IH1; [exact Hd|]. intros p Hp. pose proof (lookup_lt_Some _ _ _ Hp) as Hlt. specialize (Hno p). rewrite !lookup_app_l in Hno by lia. auto.
    + eapply IH2; [exact Hds| |done]. intros p Hp. specialize (Hno (length d + p)). rewrite !lookup_app_r in Hno by lia. rewrite Hlen in Hno.
      replace (length d + p - length d) with p in Hno by lia. auto.
Qed.
Lemma path_vector_stable c0 fs ks z : path_goes cs c0 fs ks z -> forall i0 l dz, path_vector cs e c0 fs i0 l -> domain_list cs z dz ->
  (forall p, dz !! p = Some c -> l !! p <> Some i) ->
  (forall p, reverse ks !! p = Some c -> reverse fs !! p = Some f -> l !! (length dz + p) <> Some i) -> path_vector cs e' c0 fs i0 l.
Proof.
  intros Hp. induction Hp as [c0|c0 f0 k fs ks z Hr Hp IH]; intros i0 l dz Hv Hdz Hno1 Hno2.
  - inversion Hv as [? ? ? Hc|]; subst. constructor. by eapply (proj1 class_vector_stable).
  - inversion Hv as [|? ? k' ? ? x l' Hr' Hx Hv']; subst. assert (k' = k) as -> by exact (refers_fun cs _ _ _ _ Hr' Hr).
    assert (length l' = length dz + length fs) as Hlen.
    { clear -Hp Hdz Hv'. revert x l' Hv'. induction Hp as [c|c f k fs ks z Hr Hp IH]; intros x l Hv.
      - inversion Hv as [? ? ? Hc|]; subst. pose proof (proj1 (class_vector_lengths s e) _ _ _ Hc _ Hdz). simpl. lia.
      - inversion Hv as [|? ? k' ? ? y l' Hr' Hx Hv']; subst. assert (k' = k) as -> by exact (refers_fun cs _ _ _ _ Hr' Hr).
        rewrite app_length, (IH Hdz _ _ Hv'). simpl. lia. }
    pose proof (path_goes_lengths _ _ _ _ _ Hp) as Hlk.
    econstructor; [exact Hr| |].
    + apply HE; [|exact Hx]. intros [= -> -> ->]. apply (Hno2 (length fs)).
      * rewrite reverse_cons, lookup_app_r; rewrite reverse_length; [|lia]. by replace (length fs - length ks) with 0 by lia.
      * rewrite reverse_cons, lookup_app_r; rewrite reverse_length; [|lia]. by rewrite Nat.sub_diag.
      * rewrite <- Hlen. by apply list_lookup_middle.
    + eapply IH; [exact Hv'|exact Hdz| |].
      * intros p Hpc. pose proof (lookup_lt_Some _ _ _ Hpc) as Hlt. specialize (Hno1 p Hpc). rewrite lookup_app_l in Hno1 by lia. done.
      * intros p Hk Hf. pose proof (lookup_lt_Some _ _ _ Hf) as Hlt. rewrite reverse_length in Hlt.
        specialize (Hno2 p). rewrite !reverse_cons in Hno2. rewrite !lookup_app_l in Hno2 by (rewrite ?reverse_length; lia). auto.
Qed.
End Stable.

(** ** Entities without the reference *)
Section Erase.
Variables (rid : hash_fn) (cs : gmap string pclass) (c f : string) (i : Z).
Definition erase (e : ents) : ents := Ents (alter (delete (f, i)) c (en_refs e)) (en_crps e).
Lemma erase_recorded e c' f' i' x : recorded (erase e) c' f' i' x <-> (c', f', i') <> (c, f, i) /\ recorded e c' f' i' x.
Proof.
  unfold recorded, erase. cbn [en_refs]. split.
  - intros (m & Hm & Hx). destruct (decide (c' = c)) as [->|Hne].
    + rewrite lookup_alter in Hm. apply fmap_Some in Hm as (m0 & Hm0 & ->). apply lookup_delete_Some in Hx as [Hne Hx]. split; [congruence|eauto].
    + rewrite lookup_alter_ne in Hm by done. split; [congruence|eauto].
  - intros [Hne (m & Hm & Hx)]. destruct (decide (c' = c)) as [->|Hc].
    + exists (delete (f, i) m). rewrite lookup_alter, Hm. split; [done|]. rewrite lookup_delete_ne; [done|]. congruence.
    + exists m. by rewrite lookup_alter_ne.
Qed.
Lemma erase_set e x refs : set_reference (en_refs e) c f i x = Ok refs -> forall crps, erase (Ents refs crps) = Ents (en_refs (erase e)) crps.
Proof.
  unfold set_reference. intros H. apply obind_Ok in H as (m & Hm%at_Ok & [= <-]). intros crps. unfold erase. cbn [en_refs en_crps]. f_equal.
  apply map_eq. intros c'. destruct (decide (c' = c)) as [->|Hne].
  - rewrite !lookup_alter, lookup_insert, Hm. cbn. by rewrite delete_insert_delete.
  - by rewrite !lookup_alter_ne, lookup_insert_ne by done.
Qed.
(** The reference is taken out. *)
Lemma erase_agree e k x crp crp' : ents_agree rid cs e -> refers cs c f k -> recorded e c f i x -> en_crps e !! k = Some crp ->
  crp_unincorporate crp (rid c f i) = Ok crp' -> ents_agree rid cs (erase (Ents (en_refs e) (<[k := crp']> (en_crps e)))).
Proof.
  intros A Hr Hx Hk Hu. destruct (ea_seated _ _ _ A k crp Hk) as (a & Ha & Hcust).
  assert (a !! rid c f i = Some x) as Hax by (apply Hcust; eauto 10).
  destruct (holds_unincorporate crp a _ x Ha Hax) as (crp2 & Hu2 & Ha2 & _). assert (crp2 = crp') as -> by congruence.
  assert (forall c' f' i' y, recorded (erase (Ents (en_refs e) (<[k := crp']> (en_crps e)))) c' f' i' y <-> (c', f', i') <> (c, f, i) /\ recorded e c' f' i' y) as HR
    by (intros; rewrite erase_recorded; reflexivity).
  split.
  - cbn. rewrite dom_alter_L. apply (ea_refs _ _ _ A).
  - cbn. rewrite dom_insert_lookup_L by eauto. apply (ea_crps _ _ _ A).
  - intros c' f' i' y [_ Hy]%HR. by eapply (ea_fields _ _ _ A).
  - intros k' cr Hk'. cbn in Hk'. apply lookup_insert_Some in Hk' as [[<- <-]|[Hne Hk']].
    + exists (delete (rid c f i) a). split; [done|]. intros id y. rewrite lookup_delete_Some, Hcust. split.
      * intros [Hid (c' & f' & i' & H1 & H2 & H3)]. exists c', f', i'. split_and!; [done| |done]. apply HR. split; [congruence|done].
      * intros (c' & f' & i' & H1 & [H0 H2]%HR & H3). split; [|eauto 10]. intros Hid. apply H0. rewrite <- H3 in Hid.
        destruct (ea_distinct _ _ _ A k c f i x c' f' i' y Hr H1 Hx H2 Hid) as (-> & -> & ->). done.
    + destruct (ea_seated _ _ _ A k' cr Hk') as (a' & Ha' & Hcust'). exists a'. split; [done|]. intros id y. rewrite Hcust'. split.
      * intros (c' & f' & i' & H1 & H2 & H3). exists c', f', i'. split_and!; [done| |done]. apply HR. split; [|done]. intros [= -> -> ->].
        apply Hne. exact (refers_fun cs _ _ _ _ Hr H1).
      * intros (c' & f' & i' & H1 & [_ H2]%HR & H3). eauto 10.
  - intros k' c1 f1 i1 x1 c2 f2 i2 x2 R1 R2 [_ H1]%HR [_ H2]%HR. by eapply (ea_distinct _ _ _ A).
Qed.
(** ... and put back. *)
Lemma erase_put e k x refs crp crp' : ents_agree rid cs (erase e) -> refers cs c f k -> set_reference (en_refs e) c f i x = Ok refs -> en_crps e !! k = Some crp ->
  crp_incorporate crp (rid c f i) x = Ok crp' -> ents_agree rid cs (Ents refs (<[k := crp']> (en_crps e))).
Proof.
  intros A Hr Hs Hk Hi. eapply (put_reference_agree rid cs (erase e) c f i k x); [done|done| |].
  - intros y [H _]%erase_recorded. done.
  - unfold set_reference in Hs. apply obind_Ok in Hs as (m & Hm%at_Ok & [= <-]). unfold put_reference. unfold erase at 1. cbn [en_refs].
    rewrite lookup_alter, Hm. cbn [at_ obind fmap option_fmap option_map]. change (en_crps (erase e)) with (en_crps e). rewrite Hk. cbn [at_ obind]. rewrite Hi. cbn [obind].
    do 2 f_equal. apply map_eq. intros c'. destruct (decide (c' = c)) as [->|Hne].
    + by rewrite !lookup_insert, insert_delete_insert.
    + rewrite !lookup_insert_ne by done. cbn. by rewrite lookup_alter_ne.
Qed.

(** ** Sampling the ancestors of an entity of another class *)
Lemma get_reference_erase e c' f' i' k r x e' r' : c' <> c -> get_reference rid e c' f' i' k r = Ok (x, e', r') ->
  get_reference rid (erase e) c' f' i' k r = Ok (x, erase e', r') /\
  (forall d, d <> c' -> en_refs e' !! d = en_refs e !! d) /\ (forall d, d <> k -> en_crps e' !! d = en_crps e !! d).
Proof.
  intros Hne H. unfold get_reference in H |- *. apply obind_Ok in H as (m & Hm%at_Ok & H). apply obind_Ok in H as ([e1 r1] & H1 & H).
  apply obind_Ok in H as (m1 & Hm1%at_Ok & H). apply obind_Ok in H as (y & Hy%at_Ok & H). injection H as -> -> ->.
  assert (forall e0 : ents, en_refs (erase e0) !! c' = en_refs e0 !! c') as He by (intros e0; cbn; by rewrite lookup_alter_ne).
  rewrite He, Hm. cbn [at_ obind]. destruct (m !! (f', i')) as [z|] eqn:E.
  - injection H1 as -> ->. cbn [obind]. rewrite He, Hm1. cbn [at_ obind]. rewrite Hy. done.
  - unfold sample_reference in H1 |- *. apply obind_Ok in H1 as (cr & Hc%at_Ok & H1). apply obind_Ok in H1 as ([z r2] & Hs & H1).
    apply obind_Ok in H1 as (e2 & Hp & H1). injection H1 as -> ->. change (en_crps (erase e)) with (en_crps e). rewrite Hc. cbn [at_ obind]. rewrite Hs. cbn [obind].
    unfold put_reference in Hp |- *. rewrite Hm in Hp. cbn [at_ obind] in Hp. rewrite Hc in Hp. cbn [at_ obind] in Hp.
    rewrite He, Hm. cbn [at_ obind]. change (en_crps (erase e)) with (en_crps e). rewrite Hc. cbn [at_ obind].
    apply obind_Ok in Hp as (cr' & Hi & [= <-]). rewrite Hi. cbn [obind en_refs en_crps] in *. rewrite lookup_insert in Hm1. injection Hm1 as <-.
    rewrite lookup_insert. cbn [at_ obind]. rewrite Hy. cbn [at_ obind]. split_and!.
    + do 3 f_equal. unfold erase. cbn [en_refs en_crps]. f_equal. symmetry. apply map_eq. intros d. destruct (decide (d = c)) as [->|Hd].
      * rewrite lookup_alter. rewrite !lookup_insert_ne by done. by rewrite lookup_alter.
      * rewrite lookup_alter_ne by done. destruct (decide (d = c')) as [->|Hd']; [by rewrite !lookup_insert|].
        rewrite !lookup_insert_ne by done. by rewrite lookup_alter_ne.
    + intros d Hd. by rewrite lookup_insert_ne.
    + intros d Hd. by rewrite lookup_insert_ne.
Qed.
Lemma class_ancestors_erase fuel : forall e c0 i0 r l e' r', ~ rtc (references cs) c0 c -> class_ancestors fuel rid cs e c0 i0 r = Ok (l, e', r') ->
  class_ancestors fuel rid cs (erase e) c0 i0 r = Ok (l, erase e', r') /\
  (forall d, ~ rtc (references cs) c0 d -> en_refs e' !! d = en_refs e !! d) /\ (forall d, ~ tc (references cs) c0 d -> en_crps e' !! d = en_crps e !! d).
Proof.
  induction fuel as [|fuel IH]; intros e c0 i0 r l e' r' Hno H; cbn [class_ancestors] in H |- *; [done|]. assert (c0 <> c) as Hcc by (intros ->; by apply Hno).
  apply obind_Ok in H as (u & Hu & H). rewrite Hu. cbn [obind]. apply obind_Ok in H as (cl & Hc & H). rewrite Hc. cbn [obind]. apply at_Ok in Hc.
  apply obind_Ok in H as ([[items e1] r1] & Hl & H). injection H as <- -> ->.
  assert (forall vs it e r l e' r', foldM (ancestors_step (class_ancestors fuel rid cs) rid cl c0 i0) (it, e, r) vs = Ok (l, e', r') ->
    foldM (ancestors_step (class_ancestors fuel rid cs) rid cl c0 i0) (it, erase e, r) vs = Ok (l, erase e', r') /\
    (forall d, ~ rtc (references cs) c0 d -> en_refs e' !! d = en_refs e !! d) /\ (forall d, ~ tc (references cs) c0 d -> en_crps e' !! d = en_crps e !! d)) as HG.
  { clear Hl e r items e' r'. induction vs as [|v vs IHv]; intros it e r l e' r' H; cbn [foldM] in H |- *.
    - by injection H as <- <- <-.
    - apply obind_Ok in H as ([[it2 e2] r2] & Hs & H).
      assert (ancestors_step (class_ancestors fuel rid cs) rid cl c0 i0 (it, erase e, r) v = Ok (it2, erase e2, r2) /\
        (forall d, ~ rtc (references cs) c0 d -> en_refs e2 !! d = en_refs e !! d) /\ (forall d, ~ tc (references cs) c0 d -> en_crps e2 !! d = en_crps e !! d)) as (-> & F1 & F2).
      { cbn [ancestors_step] in Hs |- *. destruct (cl !! v) as [[j ps|k]|] eqn:Ev; [by injection Hs as <- <- <-| |by injection Hs as <- <- <-].
        apply obind_Ok in Hs as ([[x e3] r3] & Hg & Hs). apply obind_Ok in Hs as ([[l4 e4] r4] & Hrec & Hs). injection Hs as <- <- <-.
        assert (references cs c0 k) as Href by (exists v, cl; done).
        destruct (get_reference_erase _ _ _ _ _ _ _ _ _ Hcc Hg) as (-> & G1 & G2). cbn [obind].
        apply IH in Hrec as (-> & R1 & R2); [|intros Hr; apply Hno; by eapply rtc_l]. cbn [obind]. split_and!; [done|..].
        - intros d Hd. rewrite R1 by (intros Hr; apply Hd; by eapply rtc_l). apply G1. intros ->. by apply Hd.
        - intros d Hd. rewrite R2 by (intros Hr; apply Hd; by eapply tc_l). apply G2. intros ->. apply Hd. by apply tc_once. }
      cbn [obind]. apply IHv in H as (-> & J1 & J2). split_and!; [done|..].
      + intros d Hd. by rewrite J1, F1.
      + intros d Hd. by rewrite J2, F2. }
  apply HG in Hl as (-> & J1 & J2). cbn [obind]. done.
Qed.
End Erase.

(** ** The candidates *)
Lemma single_entity_spec crp (dist : gmap Z R) init :
  (single_entity crp dist init ∉ dom (crp_tables crp) /\ single_entity crp dist init ∈ dom dist) \/
  (single_entity crp dist init = init /\ forall t, t ∈ dom dist -> t ∈ dom (crp_tables crp)).
Proof.
  unfold single_entity.
  assert (forall l (P : Z -> Prop) s0, (forall t, t ∈ l -> P t) ->
    let s := foldl (fun s t => if bool_decide (t ∈ dom (crp_tables crp)) then s else t) s0 l in
    (s ∉ dom (crp_tables crp) /\ P s) \/ (s = s0 /\ forall t, t ∈ l -> t ∈ dom (crp_tables crp))) as HG.
  { intros l P. induction l as [|t l IH]; intros s0 HP; cbn [foldl].
    - right. split; [done|]. intros t Ht. by apply elem_of_nil in Ht.
    - case_bool_decide as Ht.
      + destruct (IH s0 (fun t' Ht' => HP t' (elem_of_list_further _ _ _ Ht'))) as [?|[E Hl]]; [by left|]. right. split; [done|].
        intros t' [->|Ht']%elem_of_cons; auto.
      + left. destruct (IH t (fun t' Ht' => HP t' (elem_of_list_further _ _ _ Ht'))) as [?|[E Hl]]; [done|]. cbn in E. rewrite E. split; [done|]. apply HP. by left. }
  destruct (HG (sorted_keys dist) (fun t => t ∈ dom dist) init) as [?|[? H2]]; [|by left|right].
  - intros t Ht. apply elem_of_sorted_keys in Ht. by apply elem_of_dom.
  - split; [done|]. intros t Ht. apply H2, elem_of_sorted_keys. by apply elem_of_dom.
Qed.
Lemma candidates_ok crp a id init dist crp' : holds_seating crp a -> a !! id = Some init -> crp_tables_weights_gibbs crp init = Ok dist ->
  crp_unincorporate crp id = Ok crp' ->
  single_entity crp dist init ∉ dom (crp_tables crp') /\
  forall x, x ∈ dom dist -> x ∈ dom (crp_tables crp') \/ x = single_entity crp dist init.
Proof.
  intros Ha Hid Hd Hu. destruct (gibbs_weights crp a id init Ha Hid) as (w & tn & Hw & Hempty & Hsame & Hlk & _). assert (w = dist) as -> by congruence.
  destruct (holds_unincorporate crp a id init Ha Hid) as (crp2 & Hu2 & Ha2 & _). assert (crp2 = crp') as -> by congruence.
  assert (forall t, t ∈ dom (crp_tables crp) <-> customers_at a t <> ∅) as Ht.
  { intros t. rewrite elem_of_dom, (hs_tables _ _ Ha). destruct (decide (customers_at a t = ∅)) as [E|E]; split; [by intros [? ?]|done|done|eauto]. }
  assert (forall t, t ∈ dom (crp_tables crp') <-> customers_at (delete id a) t <> ∅) as Ht'.
  { intros t. rewrite elem_of_dom, (hs_tables _ _ Ha2). destruct (decide (customers_at (delete id a) t = ∅)) as [E|E]; split; [by intros [? ?]|done|done|eauto]. }
  assert (forall t, customers_at (delete id a) t ⊆ customers_at a t) as Hsub by (intros t; rewrite customers_at_delete; set_solver).
  assert (forall t, t ∈ dom dist <-> customers_at (delete id a) t <> ∅ \/ t = tn) as Hdom.
  { intros t. rewrite elem_of_dom, Hlk. destruct (decide (customers_at (delete id a) t = ∅)) as [E|E].
    - destruct (decide (t = tn)) as [->|Hne]; split; [by right|eauto|by intros [? ?]|]. intros [?|?]; done.
    - split; [by left|eauto]. }
  assert (single_entity crp dist init = tn) as ->.
  { destruct (single_entity_spec crp dist init) as [[Hn Hin]|[Ei Hall]].
    - apply Hdom in Hin as [Hin|?]; [|done]. exfalso. apply Hn, Ht. intros E. apply Hin. specialize (Hsub (single_entity crp dist init)). set_solver.
    - rewrite Ei. assert (tn ∈ dom (crp_tables crp)) as Htn by (apply Hall, Hdom; by right). apply Ht in Htn.
      destruct (decide (init = tn)) as [?|Hne]; [done|]. exfalso. apply Htn. rewrite customers_at_delete in Hempty. apply set_eq. intros j.
      split; [|set_solver]. intros Hj. assert (j <> id) as Hji. { intros ->. apply elem_of_customers_at in Hj. congruence. } set_solver. }
  split; [intros Htn; by apply Ht' in Htn|]. intros x Hx. apply Hdom in Hx as [Hx| ->]; [left; by apply Ht'|by right].
Qed.
