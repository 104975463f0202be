From Coq Require Import String Ascii.
From stdpp Require Import gmap strings list sorting relations.
From Coq Require Import ZArith Reals Lia.
From Verif Require Import M_base M_crp M_domain M_dist M_relation M_noisy M_irm M_hirm M_pclean_io M_gendb M_gendb_rels M_gendb_state M_pclean M_gendb_trans
  S_irm S_hirm S_gendb S_gendb_rels S_gendb_state P_base P_hirm_move P_hirm_history.
Local Open Scope nat_scope.

Section Data.
Context {V : Type}.
Implicit Types (h : hirm V) (a : any_rel V).

(** ** The index of a relation *)
Definition listed (idx : gmap string (gmap Z (gset items_t))) (d : string) (e : Z) (l : items_t) : Prop :=
  exists m s, idx !! d = Some m /\ m !! e = Some s /\ l ∈ s.
Lemma incorporate_loop_listed ds : forall W idx es items r W' idx' r', incorporate_loop W idx ds es items r = Ok (W', idx', r') ->
  (forall d e l, listed idx d e l -> listed idx' d e l) /\
  (forall j d e, ds !! j = Some d -> es !! j = Some e -> listed idx' d e items).
Proof.
  induction ds as [|d ds IH]; intros W idx [|e es] items r W' idx' r' H; cbn [incorporate_loop] in H; try done.
  - by injection H as _ <- _.
  - by injection H as _ <- _.
  - apply obind_Ok in H as (dm & _ & H). apply obind_Ok in H as ([dm' r1] & _ & H). apply obind_Ok in H as (m & Hm%at_Ok & H).
    apply IH in H as [H1 H2].
    assert (forall d0 e0 l, listed idx d0 e0 l \/ (d0 = d /\ e0 = e /\ l = items) -> listed idx' d0 e0 l) as Hadd.
    { intros d0 e0 l Hl. apply H1. unfold listed. destruct (decide (d0 = d)) as [->|Hne].
      - rewrite lookup_insert. destruct (decide (e0 = e)) as [->|Hne].
        + eexists _, _. split; [done|]. rewrite lookup_insert. split; [done|]. destruct Hl as [(m0 & s0 & Hm0 & Hs0 & Hin)|(_ & _ & ->)]; [|set_solver].
          assert (m0 = m) as -> by congruence. rewrite Hs0. cbn. set_solver.
        + destruct Hl as [(m0 & s0 & Hm0 & Hs0 & Hin)|(_ & -> & _)]; [|done]. assert (m0 = m) as -> by congruence.
          eexists _, s0. split; [done|]. rewrite lookup_insert_ne by done. done.
      - destruct Hl as [(m0 & s0 & Hm0 & Hs0 & Hin)|(-> & _)]; [|done]. exists m0, s0. rewrite lookup_insert_ne by done. done. }
    split; [intros; apply Hadd; by left|]. intros [|j] d0 e0 Hd He; cbn in Hd, He; [injection Hd as <-; injection He as <-; apply Hadd; by right|by eapply H2].
Qed.
Lemma cleanup_loop_listed ds : forall idx es items idx', cleanup_loop idx ds es items = Ok idx' ->
  forall d e l, l <> items -> listed idx d e l -> listed idx' d e l.
Proof.
  induction ds as [|d ds IH]; intros idx [|e es] items idx' H; cbn [cleanup_loop] in H; try done; try by injection H as <-.
  apply obind_Ok in H as (m & Hm%at_Ok & H). intros d0 e0 l Hne Hl. eapply IH; [exact H|done|]. clear IH H.
  destruct Hl as (m0 & s0 & Hm0 & Hs0 & Hin). unfold listed. destruct (decide (d0 = d)) as [->|Hd].
  - assert (m0 = m) as -> by congruence. rewrite lookup_insert. destruct (decide (e0 = e)) as [->|He].
    + rewrite Hs0. case_bool_decide as Es; [set_solver|]. eexists _, _. split; [done|]. rewrite lookup_insert. split; [done|]. set_solver.
    + eexists _, s0. split; [done|]. destruct (m !! e); [|done]. case_bool_decide; [by rewrite lookup_delete_ne|by rewrite lookup_insert_ne].
  - exists m0, s0. rewrite lookup_insert_ne by done. done.
Qed.

(** [a'] is [a] with one more observation. *)
Record one_more a a' (items : items_t) (v : V) : Prop := {
  om_data : any_data a' = <[items := v]> (any_data a);
  om_type : forall o, any_type a' o = any_type a o;
  om_coherent : coherent a -> coherent a' /\ any_data a !! items = None;
  om_indexed : indexed a -> indexed a';
}.

Lemma incorporate_items_keeps {U} (D : Dist U) W rel items r W' rel' z r' : incorporate_items D W rel items r = Ok (W', rel', z, r') ->
  r_data rel' = r_data rel /\ r_doms rel' = r_doms rel /\ r_spec rel' = r_spec rel /\ r_data rel !! items = None /\
  (forall d e l, listed (r_data_r rel) d e l -> listed (r_data_r rel') d e l) /\
  (forall j d e, r_doms rel !! j = Some d -> items !! j = Some e -> listed (r_data_r rel') d e items).
Proof.
  intros H. unfold incorporate_items in H. apply obind_Ok in H as (? & Ha%assert_Ok & H). apply bool_decide_eq_true in Ha.
  apply not_elem_of_dom in Ha.
  apply obind_Ok in H as ([[W1 idx] r1] & Hi%incorporate_loop_listed & H). apply obind_Ok in H as (z1 & _ & H). destruct Hi as [L1 L2].
  destruct (r_clusters _ !! z1); [by injection H as <- <- <- <-|].
  destruct (make_new_distribution _ _ _) as [c r2]. by injection H as <- <- <- <-.
Qed.
Lemma more_indexed a a' items v : any_data a' = <[items := v]> (any_data a) -> any_doms a' = any_doms a ->
  (forall d e l, listed (any_data_r a) d e l -> listed (any_data_r a') d e l) ->
  (forall j d e, any_doms a !! j = Some d -> items !! j = Some e -> listed (any_data_r a') d e items) -> indexed a -> indexed a'.
Proof.
  intros E1 E2 L1 L2 Hi l j d e Hl Hd He. rewrite E1 in Hl. rewrite E2 in Hd. destruct (decide (l = items)) as [->|Hne].
  - by apply (L2 j).
  - rewrite lookup_insert_ne in Hl by done. apply L1. by eapply Hi.
Qed.
Lemma any_incorporate_more lk W a items v r W' a' r' : any_incorporate lk W a items v r = Ok (W', a', r') -> one_more a a' items v.
Proof.
  intros H. destruct a as [D rel|n]; cbn [any_incorporate] in H.
  - apply obind_Ok in H as ([[W1 rel1] r1] & H & E). injection E as <- <- <-.
    unfold rel_incorporate in H. apply obind_Ok in H as ([[[W2 rel2] z] r2] & Hi & H).
    apply incorporate_items_keeps in Hi as (E1 & E2 & E3 & E4 & L1 & L2).
    apply obind_Ok in H as (c & _ & H). apply obind_Ok in H as (c' & _ & H). injection H as <- <- <-.
    split; [cbn; by rewrite E1|cbn; by rewrite E2, E3|done|]. apply (more_indexed _ _ items v); cbn; [by rewrite E1|done|done|done].
  - apply obind_Ok in H as (b & _ & H). apply obind_Ok in H as ([[W1 n1] r1] & H & E). injection E as <- <- <-.
    unfold noisy_incorporate in H. apply obind_Ok in H as (bi & _ & H). apply obind_Ok in H as (bv & _ & H).
    apply obind_Ok in H as ([[W3 rel3] r3] & Hr & H). injection H as <- <- <-.
    unfold rel_incorporate in Hr. apply obind_Ok in Hr as ([[[W2 rel2] z] r2] & Hi & Hr).
    apply incorporate_items_keeps in Hi as (E1 & E2 & E3 & E4 & L1 & L2).
    apply obind_Ok in Hr as (c & _ & Hr). apply obind_Ok in Hr as (c' & _ & Hr). injection Hr as <- <- <-.
    split; cbn; [done|by rewrite E2, E3| |].
    + intros Hc. split; [by rewrite !dom_insert_L, E1, Hc|]. apply not_elem_of_dom. rewrite Hc. by apply not_elem_of_dom.
    + apply (more_indexed (ANoisy n) _ items v); cbn; done.
Qed.
Lemma sample_at_items_keeps {U} (D : Dist U) W rel items r v rel' r' : sample_at_items D W rel items r = Ok (v, rel', r') ->
  r_data rel' = r_data rel /\ r_doms rel' = r_doms rel /\ r_spec rel' = r_spec rel /\ r_data_r rel' = r_data_r rel.
Proof.
  intros H. unfold sample_at_items in H. apply obind_Ok in H as (b & _ & H). destruct b.
  - apply obind_Ok in H as (z & _ & H). apply obind_Ok in H as (c & _ & H). apply obind_Ok in H as ([[v1 c1] r1] & _ & H). by injection H as <- <- <-.
  - destruct (make_new_distribution _ _ _) as [c r1]. apply obind_Ok in H as ([[v1 c1] r2] & _ & H). by injection H as <- <- <-.
Qed.
Lemma any_sample_more lk W a items r v W' a' r' : any_sample_and_incorporate lk W a items r = Ok (v, W', a', r') -> one_more a a' items v.
Proof.
  intros H. destruct a as [D rel|n]; cbn [any_sample_and_incorporate] in H.
  - apply obind_Ok in H as ([[[v1 W1] rel1] r1] & H & E). injection E as <- <- <- <-.
    unfold rel_sample_and_incorporate in H. apply obind_Ok in H as ([[[W2 rel2] z] r2] & Hi & H).
    apply incorporate_items_keeps in Hi as (E1 & E2 & E3 & E4 & L1 & L2).
    apply obind_Ok in H as ([[v3 rel3] r3] & Hs & H). apply sample_at_items_keeps in Hs as (F1 & F2 & F3 & F4).
    apply obind_Ok in H as (c & _ & H). apply obind_Ok in H as (c' & _ & H). injection H as <- <- <- <-.
    split; [cbn; by rewrite F1, E1|cbn; by rewrite F2, F3, E2, E3|done|].
    apply (more_indexed _ _ items v3); cbn; [by rewrite F1, E1|by rewrite F2, E2|by rewrite F4|by rewrite F4].
  - apply obind_Ok in H as (b & _ & H). apply obind_Ok in H as ([[[v1 W1] n1] r1] & H & E). injection E as <- <- <- <-.
    unfold noisy_sample_and_incorporate in H. apply obind_Ok in H as ([[[W2 rel2] z] r2] & Hi & H).
    apply incorporate_items_keeps in Hi as (E1 & E2 & E3 & E4 & L1 & L2).
    apply obind_Ok in H as (bv & _ & H). apply obind_Ok in H as (bi & _ & H). apply obind_Ok in H as ([v2 r3] & _ & H).
    apply obind_Ok in H as (c & _ & H). apply obind_Ok in H as (c' & _ & H). injection H as <- <- <- <-.
    split; cbn; [done|by rewrite E2, E3| |].
    + intros Hc. split; [by rewrite !dom_insert_L, E1, Hc|]. apply not_elem_of_dom. rewrite Hc. by apply not_elem_of_dom.
    + apply (more_indexed (ANoisy n) _ items v2); cbn; done.
Qed.

(** [h'] is [h] with one more observation of relation [n]. *)
Record stored h h' (n : string) (items : items_t) (v : V) : Prop := {
  st_schema : h_schema h' = h_schema h;
  st_code : h_code h' = h_code h;
  st_others : forall m, m <> n -> hirm_lookup h' m = hirm_lookup h m;
  st_this : exists a a', hirm_lookup h n = Some a /\ hirm_lookup h' n = Some a' /\ one_more a a' items v;
}.
Lemma put_stored h n tb ir a a' W items v : relation_to_table h n = Ok tb -> h_irms h !! tb = Some ir -> i_rels ir !! n = Some a ->
  one_more a a' items v -> stored h (h_set_irms h (<[tb := i_set_rel (i_set_domains ir W) n a']> (h_irms h))) n items v.
Proof.
  intros Ht%relation_to_table_Ok Hir Ha Hm. split; [done|done| |].
  - intros m Hm'. rewrite set_irm_lookup. destruct (decide (table_of h m = Some tb)) as [Et|]; [|done].
    cbn [i_set_rel i_rels i_set_domains]. rewrite lookup_insert_ne by done. symmetry.
    destruct (i_rels ir !! m) as [y|] eqn:E; [apply hirm_lookup_iff; eauto|].
    destruct (hirm_lookup h m) as [y|] eqn:E'; [|done]. apply hirm_lookup_iff in E' as (tb' & ir' & Et' & ? & ?). congruence.
  - exists a, a'. split_and!; [apply hirm_lookup_iff; eauto| |done]. rewrite set_irm_lookup, decide_True by done.
    cbn [i_set_rel i_rels i_set_domains]. by rewrite lookup_insert.
Qed.
Lemma hirm_incorporate_stored h n items v r h' r' : hirm_incorporate h n items v r = Ok (h', r') -> stored h h' n items v.
Proof.
  intros H. unfold hirm_incorporate in H. apply obind_Ok in H as (tb & Ht & H). apply obind_Ok in H as (ir & Hir%at_Ok & H).
  apply obind_Ok in H as ([ir' r1] & Hi & H). injection H as <- <-. unfold irm_incorporate in Hi.
  apply obind_Ok in Hi as (a & Ha%at_Ok & Hi). apply obind_Ok in Hi as ([[W a'] r2] & Hm & Hi). injection Hi as <- <-.
  apply any_incorporate_more in Hm. by eapply put_stored.
Qed.

(** The relations of the model are those of its schema. *)
Definition shaped h : Prop := forall n, (forall a, hirm_lookup h n = Some a ->
  exists t, h_schema h !! n = Some t /\ any_type a (t_observed t) = t /\ coherent a /\ indexed a).
(** Codes identify relations, and every relation with a code is there. *)
Definition coded h : Prop :=
  (forall n n' rc, h_code h !! n = Some rc -> h_code h !! n' = Some rc -> n = n') /\
  (forall n, is_Some (h_code h !! n) -> is_Some (hirm_lookup h n)).
Lemma stored_coded h h' n items v : stored h h' n items v -> coded h -> coded h'.
Proof.
  intros [S1 S0 S2 (a & a' & Ha & Ha' & _)] [C1 C2]. unfold coded. rewrite S0. split; [done|]. intros m Hm.
  destruct (decide (m = n)) as [->|Hne]; [eauto|]. rewrite S2 by done. by apply C2.
Qed.
Lemma stored_shaped h h' n items v : stored h h' n items v -> shaped h -> shaped h'.
Proof.
  intros [S1 _ S2 (a & a' & Ha & Ha' & [M1 M2 M3 M4])] Hsh m b Hb. rewrite S1. destruct (decide (m = n)) as [->|Hne].
  - assert (b = a') as -> by congruence. destruct (Hsh n a Ha) as (t & Ht & E & C & X). exists t. split_and!; [done|by rewrite M2|by apply M3|by apply M4].
  - rewrite S2 in Hb by done. by apply Hsh.
Qed.
Lemma any_type_doms a t : any_type a (t_observed t) = t -> any_doms a = t_domains t.
Proof. intros E. rewrite <- E. by destruct a. Qed.
Lemma stored_observed h h' n items v : stored h h' n items v -> shaped h -> forall m l w,
  observed h' m l w <-> observed h m l w \/ (m, l, w) = (n, items, v).
Proof.
  intros [S1 _ S2 (a & a' & Ha & Ha' & [M1 M2 M3 _])] Hsh m l w. destruct (Hsh n a Ha) as (t & Ht & E & C & _). destruct (M3 C) as [_ Hfresh].
  unfold observed. destruct (decide (m = n)) as [->|Hne].
  - split.
    + intros (b & Hb & Hl). assert (b = a') as -> by congruence. rewrite M1 in Hl.
      apply lookup_insert_Some in Hl as [[-> ->]|[_ Hl]]; [by right|left; eauto].
    + intros [(b & Hb & Hl)|[= -> ->]]; (exists a'; split; [done|]; rewrite M1).
      * assert (b = a) as -> by congruence. rewrite lookup_insert_ne; [done|]. intros ->. congruence.
      * apply lookup_insert.
  - rewrite S2 by done. split; [intros H; by left|]. intros [H|[= -> _ _]]; [done|congruence].
Qed.

(** Sampling an observation together with the missing base observations. *)
Lemma sample_relation_data fuel (Q : string -> items_t -> Prop) : forall h n items r v h' r',
  hirm_sample_relation fuel h n items r = Ok (v, h', r') -> shaped h ->
  (forall n items t b, Q n items -> h_schema h !! n = Some t -> t_base t = Some b -> forall tb, h_schema h !! b = Some tb ->
     length (t_domains tb) <= length items -> Q b (take (length (t_domains tb)) items)) ->
  Q n items ->
  h_schema h' = h_schema h /\ shaped h' /\ (forall m l w, observed h m l w -> observed h' m l w) /\
  observed h' n items v /\ (forall m l w, observed h' m l w -> observed h m l w \/ Q m l) /\ (coded h -> coded h').
Proof.
  induction fuel as [|fuel IH]; intros h n items r v h' r' H Hsh HQ Hn; cbn [hirm_sample_relation] in H; [done|].
  apply obind_Ok in H as (t & Ht%at_Ok & H). apply obind_Ok in H as ([h1 r1] & Hb & H).
  assert (h_schema h1 = h_schema h /\ shaped h1 /\ (forall m l w, observed h m l w -> observed h1 m l w) /\
    (forall m l w, observed h1 m l w -> observed h m l w \/ Q m l) /\ (coded h -> coded h1)) as (B1 & B2 & B3 & B4 & B5).
  { destruct t as [|ds o E sp base] eqn:Et; [injection Hb as <- <-; split_and!; auto|].
    apply obind_Ok in Hb as (a & Ha & Hb). apply obind_Ok in Hb as (nr & Hnr & Hb). apply obind_Ok in Hb as (b & Hbo & Hb).
    apply obind_Ok in Hb as (bi & Hbi & Hb). case_bool_decide as Ed; [injection Hb as <- <-; split_and!; auto|].
    apply obind_Ok in Hb as ([[v2 h2] r2] & Hb & E2). injection E2 as <- <-.
    assert (hirm_lookup h n = Some a) as Hla by (unfold hirm_lookup; by rewrite Ha).
    destruct (Hsh n a Hla) as (t' & Ht' & Et' & Hco). assert (t' = TNoisy ds o E sp base) as -> by congruence.
    assert (n_base nr = base) as Hbase.
    { destruct a as [|n0]; cbn in Hnr; [done|]. injection Hnr as ->. cbn in Et'. by injection Et'. }
    unfold base_of in Hbo. rewrite Hbase in Hbo. apply obind_Ok in Hbo as (ab & Hab%idx_Ok & Hbo). injection Hbo as <-.
    destruct (Hsh base ab Hab) as (tb & Htb & Etb & _). pose proof (any_type_doms _ _ Etb) as Hdoms.
    unfold get_base_items in Hbi. cbn [view_of bv_arity] in Hbi. case_bool_decide as Hlen; [|done]. injection Hbi as <-.
    rewrite Hdoms in *. destruct (IH _ _ _ _ _ _ _ Hb Hsh HQ) as (C1 & C2 & C3 & C4 & C5 & C6).
    - eapply HQ; [done|exact Ht|done|done|done].
    - done. }
  apply obind_Ok in H as (tb & Htb & H). apply obind_Ok in H as (ir & Hir%at_Ok & H). apply obind_Ok in H as (a & Ha%at_Ok & H).
  apply obind_Ok in H as ([[[v1 W] a'] r2] & Hs & H). injection H as <- <- <-. apply any_sample_more in Hs.
  pose proof (put_stored _ _ _ _ _ _ W _ _ Htb Hir Ha Hs) as St. pose proof (stored_observed _ _ _ _ _ St B2) as Ho.
  split_and!.
  - by rewrite (st_schema _ _ _ _ _ St).
  - by eapply stored_shaped.
  - intros m l w Hw. apply Ho. left. auto.
  - apply Ho. by right.
  - intros m l w [Hw|[= -> -> ->]]%Ho; [auto|by right].
  - intros Hc. eapply stored_coded; [exact St|auto].
Qed.
End Data.
