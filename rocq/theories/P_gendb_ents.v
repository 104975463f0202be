From Coq Require Import String Ascii.
From stdpp Require Import gmap strings list sorting relations.
From Coq Require Import ZArith Reals Lia.
From Verif Require Import M_base M_crp M_relation M_noisy M_irm M_hirm M_pclean_io M_gendb M_gendb_rels M_gendb_state M_pclean
  S_crp S_crp_state S_irm S_gendb S_gendb_rels S_gendb_state P_base P_crp P_irm_schema P_gendb P_gendb_links.
Local Open Scope nat_scope.

(** * Recorded references *)
Lemma ents_grow_refl e : ents_grow e e.
Proof. by intros c f i x. Qed.
Lemma ents_grow_trans e1 e2 e3 : ents_grow e1 e2 -> ents_grow e2 e3 -> ents_grow e1 e3.
Proof. intros H1 H2 c f i x H. by apply H2, H1. Qed.
Lemma recorded_fun e c f i x y : recorded e c f i x -> recorded e c f i y -> x = y.
Proof. intros (m & H1 & H2) (m' & H1' & H2'). simplify_eq. done. Qed.

Section Ents.
Context (rid : hash_fn) (cs : gmap string pclass).

(** A new reference. *)
Record added (e e' : ents) (c f : string) (i x : Z) : Prop := {
  ad_recorded : forall c' f' i' y, recorded e' c' f' i' y <-> recorded e c' f' i' y \/ (c', f', i', y) = (c, f, i, x);
}.
Lemma put_reference_added e c f i k x e' : (forall y, ~ recorded e c f i y) -> put_reference rid e c f i k x = Ok e' ->
  added e e' c f i x.
Proof.
  intros Hno H. unfold put_reference in H. apply obind_Ok in H as (m & Hm%at_Ok & H). apply obind_Ok in H as (cr & Hc%at_Ok & H).
  apply obind_Ok in H as (cr' & Hi & H). injection H as <-. split. intros c' f' i' y. unfold recorded. cbn [en_refs]. split.
  - intros (m' & H1 & H2). apply lookup_insert_Some in H1 as [[<- <-]|[Hne H1]]; [|left; eauto].
    apply lookup_insert_Some in H2 as [[[= -> ->] <-]|[_ H2]]; [by right|left; eauto].
  - intros [(m' & H1 & H2)|[= -> -> -> ->]].
    + destruct (decide (c' = c)) as [->|Hne].
      * assert (m' = m) as -> by congruence. eexists. rewrite lookup_insert. split; [done|].
        rewrite lookup_insert_ne; [done|]. intros [= -> ->]. apply (Hno y). by exists m.
      * exists m'. by rewrite lookup_insert_ne by done.
    + eexists. rewrite lookup_insert. split; [done|]. by rewrite lookup_insert.
Qed.
Lemma added_grow e e' c f i x : added e e' c f i x -> ents_grow e e'.
Proof. intros [H] c' f' i' y Hy. apply H. by left. Qed.

Lemma put_reference_agree e c f i k x e' : ents_agree rid cs e -> refers cs c f k -> (forall y, ~ recorded e c f i y) ->
  put_reference rid e c f i k x = Ok e' -> ents_agree rid cs e'.
Proof.
  intros A Hr Hno H. pose proof (put_reference_added _ _ _ _ _ _ _ Hno H) as [HA].
  unfold put_reference in H. apply obind_Ok in H as (m & Hm%at_Ok & H). apply obind_Ok in H as (cr & Hc%at_Ok & H).
  apply obind_Ok in H as (cr' & Hi & H). injection H as H.
  destruct (ea_seated _ _ _ A k cr Hc) as (a & Ha & Hcust).
  assert (a !! rid c f i = None) as Hfresh.
  { rewrite <- (hs_assign _ _ Ha). unfold crp_incorporate in Hi. apply obind_Ok in Hi as (? & Hi%assert_Ok & _).
    by apply bool_decide_eq_true in Hi. }
  destruct (holds_incorporate cr a (rid c f i) x Ha Hfresh) as (cr2 & Hi2 & Ha2 & _). assert (cr2 = cr') as -> by congruence.
  split.
  - rewrite <- H. cbn [en_refs]. rewrite dom_insert_L, <- (ea_refs _ _ _ A). apply elem_of_dom_2 in Hm. set_solver.
  - rewrite <- H. cbn [en_crps]. rewrite dom_insert_L, <- (ea_crps _ _ _ A). apply elem_of_dom_2 in Hc. set_solver.
  - intros c' f' i' y [Hy|[= -> -> -> ->]]%HA; [by eapply (ea_fields _ _ _ A)|eauto].
  - intros k' cr3 Hk'. assert (<[k:=cr']> (en_crps e) !! k' = Some cr3) as Hk2 by (by rewrite <- H in Hk').
    apply lookup_insert_Some in Hk2 as [[<- <-]|[Hne Hk2]].
    + exists (<[rid c f i := x]> a). split; [done|]. intros id y. rewrite lookup_insert_Some. split.
      * intros [[<- <-]|[Hne Hy]].
        -- exists c, f, i. split_and!; [done| |done]. apply HA. by right.
        -- apply Hcust in Hy as (c' & f' & i' & H1 & H2 & H3). exists c', f', i'. split_and!; [done| |done]. apply HA. by left.
      * intros (c' & f' & i' & H1 & [H2|[= -> -> -> ->]]%HA & H3); [|by left]. right.
        assert (a !! id = Some y) as Hid by (apply Hcust; eauto 10). split; [congruence|done].
    + destruct (ea_seated _ _ _ A k' cr3 Hk2) as (a' & Ha' & Hcust'). exists a'. split; [done|].
      intros id y. rewrite Hcust'. split; intros (c' & f' & i' & H1 & H2 & H3); exists c', f', i'; (split_and!; [done| |done]).
      * apply HA. by left.
      * apply HA in H2 as [H2|[= -> -> -> ->]]; [done|]. exfalso. apply Hne. exact (refers_fun cs _ _ _ _ Hr H1).
  - intros k' c1 f1 i1 x1 c2 f2 i2 x2 R1 R2 [H1|[= -> -> -> ->]]%HA [H2|[= -> -> -> ->]]%HA Heq.
    + by eapply (ea_distinct _ _ _ A k' c1 f1 i1 x1 c2 f2 i2 x2).
    + exfalso. assert (k' = k) as -> by exact (refers_fun cs _ _ _ _ R2 Hr). assert (a !! rid c1 f1 i1 = Some x1) as Hx by (apply Hcust; eauto 10). congruence.
    + exfalso. assert (k' = k) as -> by exact (refers_fun cs _ _ _ _ R1 Hr). assert (a !! rid c2 f2 i2 = Some x2) as Hx by (apply Hcust; eauto 10). congruence.
    + done.
Qed.

(** What every operation on the entities keeps. *)
Definition step_ok (e e' : ents) : Prop := (ents_agree rid cs e -> ents_agree rid cs e') /\ ents_grow e e'.
Lemma step_ok_refl e : step_ok e e.
Proof. split; [done|apply ents_grow_refl]. Qed.
Lemma step_ok_trans e1 e2 e3 : step_ok e1 e2 -> step_ok e2 e3 -> step_ok e1 e3.
Proof. intros [H1 H2] [H3 H4]. split; [auto|by eapply ents_grow_trans]. Qed.

Lemma get_reference_ok e c f i k r x e' r' : refers cs c f k -> get_reference rid e c f i k r = Ok (x, e', r') ->
  step_ok e e' /\ recorded e' c f i x.
Proof.
  intros Hr H. unfold get_reference in H. apply obind_Ok in H as (m & Hm%at_Ok & H). apply obind_Ok in H as ([e1 r1] & H1 & H).
  apply obind_Ok in H as (m1 & Hm1%at_Ok & H). apply obind_Ok in H as (y & Hy%at_Ok & H). injection H as -> -> ->.
  split; [|by exists m1]. destruct (m !! (f, i)) as [z|] eqn:E.
  - injection H1 as -> ->. apply step_ok_refl.
  - unfold sample_reference in H1. apply obind_Ok in H1 as (cr & Hc%at_Ok & H1). apply obind_Ok in H1 as ([z r2] & Hs & H1).
    apply obind_Ok in H1 as (e2 & Hp & H1). injection H1 as -> ->.
    assert (forall y, ~ recorded e c f i y) as Hno by (intros z' (m' & ? & ?); congruence).
    split; [intros A; by eapply put_reference_agree|]. by eapply added_grow, put_reference_added.
Qed.
Lemma unique_reference_ok e c f i k x e' : refers cs c f k -> unique_reference rid e c f i (Ok k) = Ok (x, e') ->
  step_ok e e' /\ recorded e' c f i x.
Proof.
  intros Hr H. unfold unique_reference in H. apply obind_Ok in H as (m & Hm%at_Ok & H). apply obind_Ok in H as (e1 & H1 & H).
  apply obind_Ok in H as (m1 & Hm1%at_Ok & H). apply obind_Ok in H as (y & Hy%at_Ok & H). injection H as -> ->.
  split; [|by exists m1]. destruct (m !! (f, i)) as [z|] eqn:E.
  - injection H1 as ->. apply step_ok_refl.
  - cbn [obind] in H1. apply obind_Ok in H1 as (cr & Hc%at_Ok & H1). apply obind_Ok in H1 as (mx & Hs & H1).
    assert (forall y, ~ recorded e c f i y) as Hno by (intros z' (m' & ? & ?); congruence).
    split; [intros A; by eapply put_reference_agree|]. by eapply added_grow, put_reference_added.
Qed.

(** * Vectors *)
Scheme class_vector_ind' := Minimality for class_vector Sort Prop
  with class_vectors_ind' := Minimality for class_vectors Sort Prop.
Combined Scheme class_vector_mutind from class_vector_ind', class_vectors_ind'.
Lemma class_vector_grow e e' : ents_grow e e' ->
  (forall c i l, class_vector cs e c i l -> class_vector cs e' c i l) /\
  (forall c i fks ls, class_vectors cs e c i fks ls -> class_vectors cs e' c i fks ls).
Proof. intros G. apply class_vector_mutind; intros; econstructor; eauto. Qed.
Lemma path_vector_grow e e' c fs i l : ents_grow e e' -> path_vector cs e c fs i l -> path_vector cs e' c fs i l.
Proof. intros G H. induction H; econstructor; eauto. by apply (class_vector_grow _ _ G). Qed.
Lemma class_vectors_snoc e c i fks ls f k x l : class_vectors cs e c i fks ls -> recorded e c f i x -> class_vector cs e k x l ->
  class_vectors cs e c i (fks ++ [(f, k)]) (ls ++ [l]).
Proof.
  intros H Hr Hl. induction H as [c i|c i f0 k0 x0 l0 fks ls Hr0 Hl0 Hls IH]; cbn.
  - econstructor; [done|done|constructor].
  - econstructor; [done|done|auto].
Qed.

Definition ancestors_field (rec : ents -> string -> Z -> rng -> outcome (items_t * ents * rng)) (c : string) (i : Z)
    (st : items_t * ents * rng) (fk : string * string) : outcome (items_t * ents * rng) :=
  let '(items, e, r) := st in
  let* (x, e, r) := get_reference rid e c fk.1 i fk.2 r in
  let* (l, e, r) := rec e fk.2 x r in
  Ok (items ++ l, e, r).
Lemma ancestors_loop rec cl c i st : foldM (ancestors_step rec rid cl c i) st (sorted_names cl) = foldM (ancestors_field rec c i) st (fields_of cl).
Proof.
  apply foldM_omap. intros [[items e] r] v. unfold ancestors_step, field_at, ancestors_field. by destruct (cl !! v) as [[|]|].
Qed.
Lemma class_ancestors_ok fuel : forall e c i r l e' r', class_ancestors fuel rid cs e c i r = Ok (l, e', r') ->
  step_ok e e' /\ class_vector cs e' c i l.
Proof.
  induction fuel as [|fuel IH]; intros e c i r l e' r' H; cbn [class_ancestors] in H; [done|].
  apply obind_Ok in H as (_ & _ & H). apply obind_Ok in H as (cl & Hc%at_Ok & H). apply obind_Ok in H as ([[items e1] r1] & Hl & H).
  injection H as <- -> ->. rewrite ancestors_loop in Hl.
  assert (forall fks dn ls e0 r0 items e1 r1, fields_of cl = dn ++ fks -> class_vectors cs e0 c i dn ls ->
    foldM (ancestors_field (class_ancestors fuel rid cs) c i) (concat ls, e0, r0) fks = Ok (items, e1, r1) ->
    step_ok e0 e1 /\ exists ls', items = concat ls' /\ class_vectors cs e1 c i (fields_of cl) ls') as Hloop.
  { clear Hl items. induction fks as [|[f k] fks IHf]; intros dn ls e0 r0 items e2 r2 Hdn Hv Hl; cbn [foldM] in Hl.
    - injection Hl as <- <- <-. rewrite Hdn, app_nil_r. split; [apply step_ok_refl|eauto].
    - apply obind_Ok in Hl as ([[it3 e3] r3] & Hs & Hl). cbn [ancestors_field fst snd] in Hs.
      apply obind_Ok in Hs as ([[x e4] r4] & Hg & Hs). apply obind_Ok in Hs as ([[l5 e5] r5] & Hrec & Hs). injection Hs as <- <- <-.
      assert (refers cs c f k) as Href by (apply (fields_refers cs c cl); [done|]; rewrite Hdn; set_solver).
      destruct (get_reference_ok _ _ _ _ _ _ _ _ _ Href Hg) as [S1 R1]. destruct (IH _ _ _ _ _ _ _ Hrec) as [S2 V2].
      replace (concat ls ++ l5) with (concat (ls ++ [l5])) in Hl by (rewrite concat_app; cbn; by rewrite app_nil_r).
      apply (IHf (dn ++ [(f, k)])) in Hl as [S3 (ls' & -> & V3)].
      + split; [|eauto]. eapply step_ok_trans; [exact S1|]. by eapply step_ok_trans.
      + by rewrite <- app_assoc.
      + eapply class_vectors_snoc; [|by apply S2|done].
        eapply class_vector_grow; [|exact Hv]. eapply ents_grow_trans; [apply S1|apply S2]. }
  apply (Hloop (fields_of cl) [] []) in Hl as [S (ls & -> & V)]; [|done|constructor].
  split; [done|]. econstructor; [done|apply fields_of_spec|done].
Qed.

Lemma path_entities_ok fuel fs v : forall e c i r l e' r', path_entities fuel rid cs e c (fs ++ [v]) i r = Ok (l, e', r') ->
  step_ok e e' /\ path_vector cs e' c fs i l.
Proof.
  induction fs as [|f fs IH]; intros e c i r l e' r' H.
  - cbn in H. apply class_ancestors_ok in H as [S V]. split; [done|by constructor].
  - assert (exists w ws, (fs ++ [v])%list = w :: ws) as (w & ws & E) by (destruct fs; cbn; eauto).
    cbn [app] in H. rewrite E in H, IH. cbn [path_entities] in H.
    apply obind_Ok in H as (cl & Hc%at_Ok & H). apply obind_Ok in H as (var & Hv%at_Ok & H). destruct var as [|k]; [done|].
    apply obind_Ok in H as ([[x e1] r1] & Hg & H). apply obind_Ok in H as ([[l1 e2] r2] & Hrec & H). injection H as <- <- <-.
    assert (refers cs c f k) as Href by by exists cl.
    destruct (get_reference_ok _ _ _ _ _ _ _ _ _ Href Hg) as [S1 R1]. destruct (IH _ _ _ _ _ _ _ Hrec) as [S2 V2].
    split; [by eapply step_ok_trans|]. econstructor; [done|by apply S2|done].
Qed.
End Ents.
