(** HIRM: single calls and their histories. *)
From Coq Require Import String Ascii.
From stdpp Require Import gmap strings sorting.
From Coq Require Import ZArith Reals Lia.
From Verif Require Import M_base M_math M_crp M_domain M_dist M_relation M_noisy M_irm M_logp M_hirm
  S_crp S_crp_state S_relation S_irm S_hirm P_base P_math P_crp P_crp_score P_domain P_relation P_any P_irm P_irm_schema
  P_irm_history P_hirm P_hirm_move P_hirm_trans.

Section History.
Context {V : Type}.
Implicit Types (h : hirm V) (ir : irm V) (A : clustering) (t ty : t_rel V) (a : seating).

(** ** Replacing one IRM by another one with the same relations *)
Lemma set_irm_holds h a tb ir ir' A' : hirm_holds h a -> h_irms h !! tb = Some ir ->
  irm_holds (schema_arity (h_schema h)) ir' A' -> i_schema ir' = i_schema ir ->
  hirm_holds (h_set_irms h (<[tb := ir']> (h_irms h))) a.
Proof.
  intros Hh Hir HA' Hs. split; simpl; try apply Hh. intros tb'. pose proof (hh_irms _ _ Hh tb') as Hi.
  destruct (decide (tb' = tb)) as [->|Hne].
  - rewrite lookup_insert. rewrite Hir in Hi. destruct Hi as (H1 & _ & H3). split_and!; [done|eauto|]. intros n ty. rewrite Hs. apply H3.
  - rewrite lookup_insert_ne by done. destruct (h_irms h !! tb') as [ir0|]; [|done]. done.
Qed.
Lemma set_irm_lookup h tb ir' n : hirm_lookup (h_set_irms h (<[tb := ir']> (h_irms h))) n =
  if decide (table_of h n = Some tb) then i_rels ir' !! n else hirm_lookup h n.
Proof.
  apply option_eq. intros y. rewrite hirm_lookup_iff. simpl. destruct (decide _) as [Ht|Ht].
  - split.
    + intros (tb' & ir1 & Ht' & Hir1 & Hy). change (table_of h n = Some tb') in Ht'. assert (tb' = tb) as -> by congruence.
      rewrite lookup_insert in Hir1. by injection Hir1 as <-.
    + intros Hy. exists tb, ir'. split_and!; [done| |done]. apply lookup_insert.
  - rewrite hirm_lookup_iff. split; intros (tb' & ir1 & Ht' & Hir1 & Hy); exists tb', ir1; change (table_of h n = Some tb') in Ht';
      (split_and!; [done| |done]); rewrite lookup_insert_ne in * by congruence; done.
Qed.
Lemma set_irm_data h a tb ir ir' A' : hirm_holds h a -> h_irms h !! tb = Some ir ->
  irm_holds (schema_arity (h_schema h)) ir' A' -> i_schema ir' = i_schema ir ->
  forall n, hirm_data (h_set_irms h (<[tb := ir']> (h_irms h))) !! n =
    if decide (table_of h n = Some tb) then irm_data ir' !! n else hirm_data h !! n.
Proof.
  intros Hh Hir HA' Hs n. rewrite (hirm_data_lookup _ a n (set_irm_holds h a tb ir ir' A' Hh Hir HA' Hs)).
  rewrite (hirm_data_lookup h a n Hh), set_irm_lookup. destruct (decide _); [|done]. unfold irm_data. by rewrite lookup_fmap.
Qed.
Lemma irm_data_at h a tb ir n : hirm_holds h a -> h_irms h !! tb = Some ir -> table_of h n = Some tb -> irm_data ir !! n = hirm_data h !! n.
Proof.
  intros Hh Hir Ht. rewrite (hirm_data_lookup h a n Hh). unfold irm_data. rewrite lookup_fmap.
  f_equal. apply option_eq. intros y. rewrite hirm_lookup_iff. split; [eauto|]. intros (tb' & ir' & Ht' & Hir' & Hy). congruence.
Qed.

Definition same_directory h h' : Prop :=
  h_schema h' = h_schema h /\ h_code h' = h_code h /\ h_rel h' = h_rel h /\ h_b2n h' = h_b2n h.

Lemma t_accepts_type h a ty items v : hirm_holds h a ->
  t_accepts (h_schema h) (hirm_data h) ty items v <-> type_accepts (hirm_lookup h) ty items v.
Proof.
  intros Hh. destruct ty as [ds obs D sp|ds obs E sp base]; simpl; [done|]. split.
  - intros (tb & m & bv & Htb & Hm & Hbv & Hacc). rewrite (hirm_data_lookup h a base Hh) in Hm.
    destruct (hirm_lookup h base) as [y|] eqn:Ey; [|done]. injection Hm as <-. exists y, bv. split_and!; try done.
    destruct (hirm_lookup_declared h a base y Hh Ey) as (tyb' & Htb' & Htyb). rewrite Htb in Htb'. injection Htb' as <-.
    rewrite Htyb in Hbv. by rewrite any_type_t_domains in Hbv.
  - intros (y & bv & Hy & Hbv & Hacc). destruct (hirm_lookup_declared h a base y Hh Hy) as (tyb & Htb & Htyb).
    exists tyb, (any_data y), bv. split_and!; try done; [by rewrite (hirm_data_lookup h a base Hh), Hy|].
    rewrite Htyb. by rewrite any_type_t_domains.
Qed.

(** ** Observations *)
Definition may_incorporate h (name : string) (items : items_t) (v : V) : Prop :=
  exists ty m, h_schema h !! name = Some ty /\ hirm_data h !! name = Some m /\ m !! items = None /\
    length items = length (t_domains ty) /\ t_accepts (h_schema h) (hirm_data h) ty items v.

Lemma hirm_incorporate_spec h a name items v r : hirm_holds h a ->
  (forall h' r', hirm_incorporate h name items v r = Ok (h', r') ->
     hirm_holds h' a /\ same_directory h h' /\ h_crp h' = h_crp h /\ may_incorporate h name items v /\
     hirm_data h' = alter (fun m => <[items := v]> m) name (hirm_data h)) /\
  (may_incorporate h name items v -> exists st, hirm_incorporate h name items v r = Ok st).
Proof.
  intros Hh. pose proof (hirm_lookup_arity h a Hh) as Hlk. unfold hirm_incorporate. split.
  - intros h' r' H. apply obind_Ok in H as (tb & Htb%relation_to_table_Ok & H). apply obind_Ok in H as (ir & Hir%at_Ok & H).
    apply obind_Ok in H as ([ir' r1] & H & [= <- <-]). destruct (irm_at_holds h a tb ir Hh Hir) as [A HA].
    destruct (irm_incorporate_spec _ _ ir A name items v r ir' r1 HA Hlk H) as (A' & x & HA' & (Hs & _) & Hx & Hn & Hl & Hdata & _).
    assert (hirm_lookup h name = Some x) as Hlx by (apply hirm_lookup_iff; eauto).
    destruct (hirm_lookup_declared h a name x Hh Hlx) as (ty & Hty & Htx).
    assert (hirm_data h !! name = Some (any_data x)) as Hdx by by rewrite (hirm_data_lookup h a name Hh), Hlx.
    split; [by eapply set_irm_holds|]. split; [done|]. split; [done|]. split.
    + exists ty, (any_data x). split_and!; [done|done|done|by rewrite Htx, any_type_t_domains|].
      apply (t_accepts_type h a ty items v Hh). rewrite Htx. exact (irm_incorporate_accepts _ _ ir A name x _ items v r _ HA Hlk Hx H).
    + apply map_eq. intros n. rewrite (set_irm_data h a tb ir ir' A' Hh Hir HA' Hs).
      destruct (decide (n = name)) as [->|Hne].
      * rewrite decide_True by done. by rewrite Hdata, lookup_insert, lookup_alter, Hdx.
      * rewrite lookup_alter_ne by done. destruct (decide _) as [Ht|]; [|done]. rewrite Hdata, lookup_insert_ne by done.
        by eapply irm_data_at.
  - intros (ty & m & Hty & Hm & Hn & Hl & Hacc).
    destruct (member h a name ty Hh Hty) as (rc & tb & ir & A & x & Hrc & Htb & Htab & Hir & HA & Hsn & Hrn & Htx & Hx).
    rewrite (proj2 (relation_to_table_Ok h name tb) Htab). cbn [obind]. rewrite Hir. cbn [at_ obind].
    rewrite (hirm_data_lookup h a name Hh), Hx in Hm. injection Hm as <-.
    destruct (irm_incorporate_Ok _ _ ir A name x (t_observed ty) items v r HA Hlk Hrn) as ([ir' r'] & Hst); [| done | | ].
    + by rewrite Hl, Htx, any_type_t_domains.
    + rewrite <- Htx. by apply (t_accepts_type h a ty items v Hh).
    + rewrite Hst. cbn [obind]. eauto.
Qed.

Lemma hirm_unincorporate_spec h a o name items : hirm_holds h a -> orders_ok o ->
  (forall h', hirm_unincorporate o h name items = Ok h' ->
     hirm_holds h' a /\ same_directory h h' /\ h_crp h' = h_crp h /\ (exists m, hirm_data h !! name = Some m /\ is_Some (m !! items)) /\
     hirm_data h' = alter (fun m => delete items m) name (hirm_data h)) /\
  ((exists m, hirm_data h !! name = Some m /\ is_Some (m !! items)) -> exists h', hirm_unincorporate o h name items = Ok h').
Proof.
  intros Hh Ho. pose proof (hirm_lookup_arity h a Hh) as Hlk. unfold hirm_unincorporate. split.
  - intros h' H. apply obind_Ok in H as (tb & Htb%relation_to_table_Ok & H). apply obind_Ok in H as (ir & Hir%at_Ok & H).
    apply obind_Ok in H as (ir' & H & [= <-]). destruct (irm_at_holds h a tb ir Hh Hir) as [A HA].
    destruct (irm_unincorporate_inv _ _ _ _ _ _ H) as (x & Hx & Hi & Hb).
    destruct (irm_unincorporate_spec _ _ o ir A name items x HA Hlk Ho Hx Hi Hb) as (ir2 & A' & H2 & HA' & (Hs & _) & Hdata & _).
    rewrite H in H2. injection H2 as <-.
    assert (hirm_lookup h name = Some x) as Hlx by (apply hirm_lookup_iff; eauto).
    assert (hirm_data h !! name = Some (any_data x)) as Hdx by by rewrite (hirm_data_lookup h a name Hh), Hlx.
    split; [by eapply set_irm_holds|]. split; [done|]. split; [done|]. split; [eauto|].
    apply map_eq. intros n. rewrite (set_irm_data h a tb ir ir' A' Hh Hir HA' Hs).
    destruct (decide (n = name)) as [->|Hne].
    + rewrite decide_True by done. by rewrite Hdata, lookup_insert, lookup_alter, Hdx.
    + rewrite lookup_alter_ne by done. destruct (decide _) as [Ht|]; [|done]. rewrite Hdata, lookup_insert_ne by done.
      by eapply irm_data_at.
  - intros (m & Hm & Hi). rewrite (hirm_data_lookup h a name Hh) in Hm. destruct (hirm_lookup h name) as [x|] eqn:Hx; [|done].
    injection Hm as <-. destruct (hirm_lookup_declared h a name x Hh Hx) as (ty & Hty & Htx0).
    destruct (member h a name ty Hh Hty) as (rc & tb & ir & A & x' & Hrc & Htb & Htab & Hir & HA & Hsn & Hrn & Htx & Hx').
    rewrite Hx in Hx'. injection Hx' as <-.
    rewrite (proj2 (relation_to_table_Ok h name tb) Htab). cbn [obind]. rewrite Hir. cbn [at_ obind].
    destruct (irm_unincorporate_spec _ _ o ir A name items x HA Hlk Ho Hrn Hi) as (ir2 & A' & H2 & _).
    { intros b Hb. assert (t_base ty = Some b) as Hb' by (rewrite Htx; destruct x; simpl in *; done).
      destruct (base_facts h a name ty b Hh Hty Hb') as (_ & tyb & Htyb & _).
      destruct (member h a b tyb Hh Htyb) as (? & ? & ? & ? & y & _ & _ & _ & _ & _ & _ & _ & _ & Hy). eauto. }
    rewrite H2. cbn [obind]. eauto.
Qed.

(** ** Inference inside one cluster *)
Lemma hirm_irm_step_spec lg o h a tb r h' r' : hirm_holds h a -> orders_ok o ->
  hirm_irm_step lg o (h, r) tb = Ok (h', r') ->
  hirm_holds h' a /\ same_directory h h' /\ h_crp h' = h_crp h /\ hirm_data h' = hirm_data h.
Proof.
  intros Hh Ho H. cbn [hirm_irm_step] in H. apply obind_Ok in H as (ir & Hir%at_Ok & H).
  apply obind_Ok in H as ([ir' r1] & H & [= <- <-]). destruct (irm_at_holds h a tb ir Hh Hir) as [A HA].
  destruct (single_step_spec _ lg o ir A r ir' r1 HA Ho H) as (A' & HA' & (Hs & _) & Hdata & _).
  split; [by eapply set_irm_holds|]. split; [done|]. split; [done|].
  apply map_eq. intros n. rewrite (set_irm_data h a tb ir ir' A' Hh Hir HA' Hs). destruct (decide _); [|done].
  rewrite Hdata. by eapply irm_data_at.
Qed.

(** ** Declaring a relation *)
Lemma add_code_fresh h : h_rel h !! add_code h = None.
Proof.
  unfold add_code. destruct (h_rel h !! _) as [n|] eqn:E; [|done]. exfalso.
  destruct (max_key (h_rel h)) as [k|] eqn:Ek.
  - apply max_key_Some in Ek as [_ Hk]. specialize (Hk (1 + k)%Z). simpl in E. assert (1 + k <= k)%Z by (apply Hk; eauto). lia.
  - destruct (max_key_exists (h_rel h)) as [k Hk]; [|congruence]. intros He. rewrite He, lookup_empty in E. done.
Qed.

Definition may_add h (name : string) ty : Prop :=
  h_schema h !! name = None /\ t_domains ty <> [] /\ forall b, t_base ty = Some b -> is_Some (h_schema h !! b).


Lemma hirm_add_spec h a name ty r : hirm_holds h a -> t_lawful ty ->
  (forall b tb, t_base ty = Some b -> h_schema h !! b = Some tb -> length (t_domains tb) <= length (t_domains ty)) ->
  (forall h' r', hirm_add_relation h name ty r = Ok (h', r') -> may_add h name ty /\
     exists table, hirm_holds h' (<[add_code h := table]> a) /\
       h_schema h' = <[name := ty]> (h_schema h) /\ h_code h' = <[name := add_code h]> (h_code h) /\
       h_b2n h' = h_push_noisy (h_b2n h) ty name /\
       (forall n, n <> name -> table_of h' n = table_of h n) /\
       hirm_data h' = <[name := ∅]> (hirm_data h)) /\
  (may_add h name ty -> exists st, hirm_add_relation h name ty r = Ok st).
Proof.
  intros Hh HL Hdoms. set (ar' := schema_arity (<[name := ty]> (h_schema h))). set (rc := add_code h).
  assert (h_rel h !! rc = None) as Hrel by apply add_code_fresh.
  assert (a !! rc = None) as Harc.
  { destruct (a !! rc) eqn:E; [|done]. assert (is_Some (h_rel h !! rc)) as [? ?] by (apply (hh_seated _ _ Hh); eauto). congruence. }
  destruct (crp_sample_spec (h_crp h) a r (hh_crp _ _ Hh)) as (table & r1 & w & Hsample & _).
  destruct (holds_incorporate (h_crp h) a rc table (hh_crp _ _ Hh) Harc) as (c & Hc & Hcs & _).
  set (irms := match h_irms h !! table with Some _ => h_irms h | None => <[table := irm_empty]> (h_irms h) end).
  set (h1 := Hirm (<[name := ty]> (h_schema h)) irms (h_code h) (h_rel h) (h_push_noisy (h_b2n h) ty name) c).
  assert (irms !! table = Some (irm_at h table)) as Hirt.
  { unfold irms, irm_at. destruct (h_irms h !! table) eqn:E; [done|]. apply lookup_insert. }
  assert (forall tb, tb <> table -> irms !! tb = h_irms h !! tb) as Hirne.
  { intros tb Hne. unfold irms. destruct (h_irms h !! table); [done|]. by rewrite lookup_insert_ne. }
  assert (h_schema h !! name = None -> exists A, irm_holds ar' (irm_at h table) A) as HAt.
  { intros Hn. unfold irm_at. destruct (h_irms h !! table) as [ir|] eqn:E; simpl.
    - destruct (irm_at_holds h a table ir Hh E) as [A HA]. exists A. eapply irm_holds_mono; [|done].
      intros n k. by apply schema_arity_insert.
    - exists ∅. apply irm_holds_empty. }
  assert (forall n, n <> name -> table_of h1 n = table_of h n) as Htab1.
  { intros n Hn. unfold table_of, h1. simpl. rewrite (hs_assign _ _ Hcs), (hs_assign _ _ (hh_crp _ _ Hh)).
    destruct (h_code h !! n) as [rn|] eqn:En; [|done]. simpl. rewrite lookup_insert_ne; [done|]. intros <-.
    apply (hh_codes _ _ Hh) in En. congruence. }
  assert (forall b, b <> name -> is_Some (h_schema h !! b) -> is_Some (hirm_lookup h1 b)) as Hlook.
  { intros b Hb [tyb Htyb]. destruct (member h a b tyb Hh Htyb) as (rb & tb & ir & A & x & Hrb & Hab & Htab & Hir & HA & Hsn & Hrn & Htx & Hx).
    exists x. apply hirm_lookup_iff. exists tb, ir. split_and!; [by rewrite Htab1| |done]. simpl.
    destruct (decide (tb = table)) as [->|Hne]; [rewrite Hirt; unfold irm_at; by rewrite Hir|by rewrite Hirne]. }
  assert (h_schema h !! name = None -> is_Some (h_code h !! name) -> False) as Hcode.
  { intros Hn Hs. apply (hh_schema _ _ Hh) in Hs as [? ?]. congruence. }
  assert (h_schema h !! name = None -> forall b, t_base ty = Some b -> is_Some (h_schema h !! b) -> b <> name) as Hbn.
  { intros Hn b _ [? ?] ->. congruence. }
  assert (h_schema h !! name = None -> (forall b, t_base ty = Some b -> is_Some (h_schema h !! b)) ->
    (forall ir', add_relation_to_irm h1 (irm_at h table) name ty = Ok ir' ->
     t_domains ty <> [] /\ grown ar' name ty ∅ (irm_at h table) ir') /\
    (t_domains ty <> [] -> exists ir', add_relation_to_irm h1 (irm_at h table) name ty = Ok ir')) as Hadd.
  { intros Hn Hbase. destruct (HAt Hn) as [A HA]. destruct (add_to_irm_spec ar' h1 (irm_at h table) A name ty HA HL) as [H1 H2].
    - unfold ar', schema_arity. by rewrite lookup_insert.
    - intros b Hb. destruct (Hbase b Hb) as [tyb Htyb]. exists (length (t_domains tyb)). split; [|by eapply Hdoms].
      unfold ar', schema_arity. rewrite lookup_insert_ne by (apply not_eq_sym; eapply Hbn; eauto). by rewrite Htyb.
    - split.
      + intros ir' H. destruct (H1 ir' H) as (? & ? & ?). done.
      + intros Hne. apply H2; [|done|].
        * unfold irm_at. intros Hd. apply elem_of_dom in Hd as [y Hy]. destruct (h_irms h !! table) as [ir|] eqn:E; simpl in Hy; [|by rewrite lookup_empty in Hy].
          destruct (irm_at_holds h a table ir Hh E) as [A0 HA0]. destruct (irm_schema_lookup _ ir A0 name y HA0 Hy) as (tyn & Htyn & _).
          pose proof (hh_irms _ _ Hh table) as Hi. rewrite E in Hi. destruct Hi as (_ & _ & Hm). apply Hm in Htyn as [? _]. congruence.
        * intros b Hb. apply Hlook; [|by apply Hbase]. eapply Hbn; eauto. }
  unfold hirm_add_relation. fold rc. rewrite Hsample.
  assert (forall n, h_schema h !! n = None <-> n ∉ dom (h_schema h)) as Hnd by (intros n; by rewrite not_elem_of_dom).
  split.
  - intros h' r' H. apply obind_Ok in H as (u & Hn%assert_Ok & H). apply bool_decide_eq_true in Hn. apply Hnd in Hn.
    cbn [obind] in H. rewrite Hc in H. cbn [obind] in H. fold irms in H. apply obind_Ok in H as (u2 & Hb & H).
    fold h1 in H. rewrite Hirt in H. cbn [at_ obind] in H. apply obind_Ok in H as (ir' & Hir' & H).
    apply obind_Ok in H as (u3 & _ & H). apply obind_Ok in H as (u4 & _ & [= <- <-]).
    assert (forall b, t_base ty = Some b -> is_Some (h_schema h !! b)) as Hbase.
    { intros b Htb. destruct ty as [|ds obs E sp base]; [done|]. simpl in Htb. injection Htb as ->.
      destruct (h_code h !! b) as [rb|] eqn:Erb; [apply (hh_schema _ _ Hh); eauto|].
      destruct (<[name:=_]> (h_schema h) !! b); done. }
    destruct (proj1 (Hadd Hn Hbase) ir' Hir') as [Hne Hg].
    split; [done|]. exists table. set (h' := Hirm _ _ _ _ _ _).
    assert (forall n, table_of h' n = if decide (n = name) then Some table else table_of h n) as Htab.
    { intros n. destruct (decide (n = name)) as [->|Hnn].
      - unfold table_of, h'. simpl. rewrite lookup_insert. simpl. rewrite (hs_assign _ _ Hcs). apply lookup_insert.
      - rewrite <- (Htab1 n Hnn). unfold table_of, h', h1. simpl. by rewrite lookup_insert_ne. }
    assert (hirm_holds h' (<[rc := table]> a)) as Hh'.
    { split; simpl.
      - done.
      - intros n k. destruct (decide (n = name)) as [->|Hnn].
        + rewrite lookup_insert. destruct (decide (k = rc)) as [->|Hk]; [by rewrite lookup_insert|].
          rewrite lookup_insert_ne by done. split; [by intros [= <-]|]. intros Hk'. apply (hh_codes _ _ Hh) in Hk'. exfalso. apply Hcode; eauto.
        + rewrite lookup_insert_ne by done. destruct (decide (k = rc)) as [->|Hk].
          * rewrite lookup_insert. split; [|by intros [= <-]]. intros Hk'. apply (hh_codes _ _ Hh) in Hk'. congruence.
          * rewrite lookup_insert_ne by done. apply (hh_codes _ _ Hh).
      - intros k. destruct (decide (k = rc)) as [->|Hk]; [rewrite !lookup_insert; split; eauto|].
        rewrite !lookup_insert_ne by done. apply (hh_seated _ _ Hh).
      - intros n. destruct (decide (n = name)) as [->|Hnn]; [rewrite !lookup_insert; split; eauto|].
        rewrite !lookup_insert_ne by done. apply (hh_schema _ _ Hh).
      - assert (h_schema h ⊆ <[name := ty]> (h_schema h)) as Hsub by by apply insert_subseteq.
        intros n [tyn Htyn]. destruct (decide (n = name)) as [->|Hnn].
        + destruct (t_base ty) as [b|] eqn:Eb.
          * eapply grounded_noisy; [apply lookup_insert|done|]. eapply grounded_mono; [done|]. apply (hh_grounded _ _ Hh). by apply Hbase.
          * eapply grounded_clean; [apply lookup_insert|done].
        + rewrite lookup_insert_ne in Htyn by done. eapply grounded_mono; [done|]. apply (hh_grounded _ _ Hh). eauto.
      - intros n tyn Htyn. destruct (decide (n = name)) as [->|Hnn].
        + rewrite lookup_insert in Htyn. injection Htyn as <-. split; [done|]. intros b tyb Hbb Htyb.
          destruct (Hbase b Hbb) as [tyb' Htyb']. rewrite lookup_insert_ne in Htyb by (apply not_eq_sym; eapply Hbn; eauto). by eapply Hdoms.
        + rewrite lookup_insert_ne in Htyn by done. destruct (hh_lawful _ _ Hh n tyn Htyn) as [HL' Hbb']. split; [done|].
          intros b tyb Hbb Htyb. destruct (base_facts h a n tyn b Hh Htyn Hbb) as (_ & tyb' & Htyb' & Hle).
          assert (b <> name) by (intros ->; congruence). rewrite lookup_insert_ne in Htyb by done. congruence.
      - intros n tyn Htyn. destruct (decide (n = name)) as [->|Hnn].
        + rewrite lookup_insert in Htyn. by injection Htyn as <-.
        + rewrite lookup_insert_ne in Htyn by done. by apply (hh_domains _ _ Hh n).
      - intros tb. destruct (decide (tb = table)) as [->|Hne'].
        + rewrite lookup_insert. split_and!.
          * rewrite customers_at_insert_eq by done. set_solver.
          * apply Hg.
          * intros n tyn. fold h'. rewrite Htab, (gr_schema _ _ _ _ _ _ Hg). destruct (decide (n = name)) as [->|Hnn].
            { rewrite !lookup_insert. naive_solver. }
            rewrite !lookup_insert_ne by done. unfold irm_at. pose proof (hh_irms _ _ Hh table) as Hi.
            destruct (h_irms h !! table) as [ir|] eqn:E; simpl; [apply Hi|]. rewrite lookup_empty. split; [done|].
            intros [Htyn Htn]. destruct (member h a n tyn Hh Htyn) as (? & ? & ? & ? & ? & ? & ? & ? & ? & _). congruence.
        + rewrite lookup_insert_ne, Hirne by done. rewrite customers_at_insert_ne by done. pose proof (hh_irms _ _ Hh tb) as Hi.
          destruct (h_irms h !! tb) as [ir|] eqn:E; [|done]. destruct Hi as (H1 & [A HA] & H3). split_and!; [done| |].
          * exists A. eapply irm_holds_mono; [|done]. intros n k. by apply schema_arity_insert.
          * intros n tyn. fold h'. rewrite Htab, H3. destruct (decide (n = name)) as [->|Hnn]; [|by rewrite lookup_insert_ne].
            rewrite lookup_insert, Hn. split; [by intros [? _]|]. intros [_ [= ?]]. congruence. }
    split_and!; try done.
    + intros n Hnn. by rewrite Htab, decide_False.
    + apply map_eq. intros n. rewrite (hirm_data_lookup h' _ n Hh'). destruct (decide (n = name)) as [->|Hnn].
      * rewrite lookup_insert. destruct (gr_rel _ _ _ _ _ _ Hg) as (y & Hy & Hdy & _).
        assert (hirm_lookup h' name = Some y) as ->; [|simpl; by rewrite Hdy].
        apply hirm_lookup_iff. exists table, ir'. rewrite Htab, decide_True by done. split_and!; [done| |done]. apply lookup_insert.
      * rewrite lookup_insert_ne by done. rewrite (hirm_data_lookup h a n Hh). f_equal. apply option_eq. intros y.
        rewrite !hirm_lookup_iff. setoid_rewrite Htab. rewrite decide_False by done. simpl. split.
        -- intros (tb & ir & Ht & Hir & Hy). exists tb. destruct (decide (tb = table)) as [->|Hne'].
           ++ rewrite lookup_insert in Hir. injection Hir as <-. rewrite (gr_other _ _ _ _ _ _ Hg n Hnn) in Hy. unfold irm_at in Hy.
              destruct (h_irms h !! table) as [ir|] eqn:E; simpl in Hy; [eauto|by rewrite lookup_empty in Hy].
           ++ rewrite lookup_insert_ne, Hirne in Hir by done. eauto.
        -- intros (tb & ir & Ht & Hir & Hy). exists tb. destruct (decide (tb = table)) as [->|Hne'].
           ++ exists ir'. rewrite lookup_insert. split_and!; try done. rewrite (gr_other _ _ _ _ _ _ Hg n Hnn). unfold irm_at. by rewrite Hir.
           ++ exists ir. rewrite lookup_insert_ne, Hirne by done. done.
  - intros (Hn & Hne & Hbase). rewrite bool_decide_eq_true_2 by by apply Hnd. cbn [assert_ obind]. rewrite Hc. cbn [obind]. fold irms.
    assert (match ty with TClean _ _ _ _ => Ok tt | TNoisy _ _ _ _ base =>
              match h_code h !! base with Some _ => Ok tt
              | None => match <[name := ty]> (h_schema h) !! base with None => Throws | Some _ => AssertFail end end end = Ok tt) as Hb.
    { destruct ty as [|ds obs E sp base]; [done|]. destruct (Hbase base eq_refl) as [tyb Htyb].
      assert (is_Some (h_code h !! base)) as [rb ->] by (apply (hh_schema _ _ Hh); eauto). done. }
    rewrite Hb. cbn [obind]. fold h1. rewrite Hirt. cbn [at_ obind].
    destruct (proj2 (Hadd Hn Hbase) Hne) as [ir' Hir']. rewrite Hir'. cbn [obind].
    rewrite bool_decide_eq_true_2 by (intros Hd; apply elem_of_dom in Hd; by apply Hcode). cbn [assert_ obind].
    rewrite bool_decide_eq_true_2 by by apply not_elem_of_dom. cbn [assert_ obind]. eauto.
Qed.

(** ** Removing a relation *)
Lemma hirm_remove_spec h a o name : hirm_holds h a -> orders_ok o ->
  (forall n t, h_schema h !! n = Some t -> t_base t <> Some name) ->
  (forall h', hirm_remove_relation o h name = Ok h' ->
     exists rc, h_code h !! name = Some rc /\ hirm_holds h' (delete rc a) /\
     h_schema h' = delete name (h_schema h) /\ h_code h' = delete name (h_code h) /\ h_b2n h' = h_b2n h /\
     (forall n, n <> name -> table_of h' n = table_of h n) /\
     hirm_data h' = delete name (hirm_data h)) /\
  (is_Some (h_schema h !! name) -> exists h', hirm_remove_relation o h name = Ok h').
Proof.
  intros Hh Ho Hno. unfold hirm_remove_relation.
  destruct (h_schema h !! name) as [ty|] eqn:Hty.
  2:{ split; [|by intros [? ?]]. intros h' H. exfalso. apply obind_Ok in H as (rc & Hrc%at_Ok & _).
      assert (is_Some (h_schema h !! name)) as [? ?] by (apply (hh_schema _ _ Hh); eauto). congruence. }
  destruct (member h a name ty Hh Hty) as (rc & cur & ir & A & x & Hrc & Hcur & Htab & Hir & HA & Hsn & Hrn & Htx & Hx).
  rewrite Hrc. cbn [at_ obind]. rewrite (hs_assign _ _ (hh_crp _ _ Hh)), Hcur. cbn [at_ obind].
  assert (rc ∈ customers_at a cur) as Hin by by apply elem_of_customers_at.
  rewrite (hs_tables _ _ (hh_crp _ _ Hh) cur). rewrite decide_False by set_solver. cbn [at_ obind].
  destruct (holds_unincorporate (h_crp h) a rc cur (hh_crp _ _ Hh) Hcur) as (c & Hc & Hcs & _). rewrite Hc. cbn [obind].
  rewrite Hir. cbn [at_ obind].
  destruct (irm_remove_spec _ o ir A name x HA Ho Hrn) as (ir1 & A1 & H1 & HA1 & Hr1 & Hs1 & _). rewrite H1. cbn [obind].
  set (ar' := schema_arity (delete name (h_schema h))).
  assert (forall n, n <> name -> ar' n = schema_arity (h_schema h) n) as Har.
  { intros n Hn. unfold ar', schema_arity. by rewrite lookup_delete_ne. }
  assert (forall irms, (forall tb, tb <> cur -> irms !! tb = h_irms h !! tb) ->
     (if decide (customers_at a cur = {[rc]}) then irms !! cur = None else irms !! cur = Some ir1) ->
     let h' := Hirm (delete name (h_schema h)) irms (delete name (h_code h)) (delete rc (h_rel h)) (h_b2n h) c in
     hirm_holds h' (delete rc a) /\ (forall n, n <> name -> table_of h' n = table_of h n) /\ hirm_data h' = delete name (hirm_data h)) as Hfin.
  { intros irms Hirms Hicur h'.
    assert (forall n, table_of h' n = if decide (n = name) then None else table_of h n) as Ht'.
    { intros n. unfold table_of, h'. simpl. rewrite (hs_assign _ _ Hcs), (hs_assign _ _ (hh_crp _ _ Hh)).
      destruct (decide (n = name)) as [->|Hn]; [by rewrite lookup_delete|]. rewrite lookup_delete_ne by done.
      destruct (h_code h !! n) as [rn|] eqn:En; [|done]. simpl. rewrite lookup_delete_ne; [done|]. intros <-. apply Hn. by eapply (code_inj h a). }
    assert (customers_at a cur = {[rc]} -> forall n, n <> name -> table_of h n <> Some cur) as Honly.
    { intros Hone n Hn Ht. unfold table_of in Ht. destruct (h_code h !! n) as [rn|] eqn:En; [|done]. simpl in Ht.
      rewrite (hs_assign _ _ (hh_crp _ _ Hh)) in Ht. assert (rn ∈ customers_at a cur) as Hrn' by by apply elem_of_customers_at.
      rewrite Hone in Hrn'. apply elem_of_singleton in Hrn' as ->. apply Hn. by eapply (code_inj h a). }
    assert (hirm_holds h' (delete rc a)) as Hh'.
    { split; simpl.
      - done.
      - intros n k. rewrite !lookup_delete_Some, (hh_codes _ _ Hh). split.
        + intros [Hn Hk]. split; [|done]. intros <-. apply (hh_codes _ _ Hh) in Hrc. congruence.
        + intros [Hn Hk]. split; [|done]. intros <-. apply (hh_codes _ _ Hh) in Hk. congruence.
      - intros k. destruct (decide (k = rc)) as [->|Hk]; [rewrite !lookup_delete; split; by intros [? ?]|]. rewrite !lookup_delete_ne by done. apply (hh_seated _ _ Hh).
      - intros n. destruct (decide (n = name)) as [->|Hk]; [rewrite !lookup_delete; split; by intros [? ?]|]. rewrite !lookup_delete_ne by done. apply (hh_schema _ _ Hh).
      - intros n [tyn Htyn]. apply lookup_delete_Some in Htyn as [Hn Htyn]. apply grounded_delete; [done|done|]. apply (hh_grounded _ _ Hh). eauto.
      - intros n tyn Htyn. apply lookup_delete_Some in Htyn as [Hn Htyn]. destruct (hh_lawful _ _ Hh n tyn Htyn) as [HL Hb]. split; [done|].
        intros b tyb Hb' Htyb. apply lookup_delete_Some in Htyb as [_ Htyb]. by eapply Hb.
      - intros n tyn Htyn. apply lookup_delete_Some in Htyn as [Hn Htyn]. by apply (hh_domains _ _ Hh n).
      - intros tb. destruct (decide (tb = cur)) as [->|Hne].
        + destruct (decide (customers_at a cur = {[rc]})) as [Hone|Hone]; rewrite Hicur.
          { rewrite customers_at_delete, Hone. set_solver. }
          split_and!.
          * rewrite customers_at_delete. intros He. apply Hone. apply set_eq. intros i. rewrite elem_of_singleton. split; [|by intros ->].
            intros Hi. destruct (decide (i = rc)) as [|Hne]; [done|]. exfalso. apply (not_elem_of_empty (C:=gset Z) i). rewrite <- He. set_solver.
          * exists A1. eapply irm_holds_ar_used; [|done]. intros n y Hy. rewrite Hr1 in Hy. apply lookup_delete_Some in Hy as [Hn Hy].
            split; [by apply Har|]. intros b Hb. apply Har. intros ->.
            destruct (irm_schema_lookup _ ir A n y HA Hy) as (tyn & Htyn & Htyy & _).
            pose proof (hh_irms _ _ Hh cur) as Hi. rewrite Hir in Hi. destruct Hi as (_ & _ & Hm). apply Hm in Htyn as [Htyn _].
            apply (Hno n tyn Htyn). rewrite Htyy. destruct y; simpl in *; congruence.
          * intros n tyn. fold h'. rewrite Ht', Hs1. pose proof (hh_irms _ _ Hh cur) as Hi. rewrite Hir in Hi. destruct Hi as (_ & _ & Hm).
            destruct (decide (n = name)) as [->|Hn]; [rewrite !lookup_delete; split; [done|by intros [? _]]|]. rewrite !lookup_delete_ne by done. apply Hm.
        + rewrite Hirms by done. pose proof (hh_irms _ _ Hh tb) as Hi. rewrite customers_at_delete.
          assert (customers_at a tb ∖ {[rc]} = customers_at a tb) as ->.
          { apply set_eq. intros i. rewrite elem_of_difference, elem_of_singleton. split; [tauto|]. intros Hi'. split; [done|]. intros ->.
            apply elem_of_customers_at in Hi'. congruence. }
          destruct (h_irms h !! tb) as [ir0|] eqn:E0; [|done]. destruct Hi as (Hi1 & [A0 HA0] & Hm). split_and!; [done| |].
          * exists A0. eapply irm_holds_ar_used; [|done]. intros n y Hy.
            destruct (irm_schema_lookup _ ir0 A0 n y HA0 Hy) as (tyn & Htyn & Htyy & _). apply Hm in Htyn as [Htyn Htn].
            split; [apply Har; congruence|]. intros b Hb. apply Har. intros ->.
            apply (Hno n tyn Htyn). rewrite Htyy. destruct y; simpl in *; congruence.
          * intros n tyn. fold h'. rewrite Ht', Hm. destruct (decide (n = name)) as [->|Hn]; [|by rewrite lookup_delete_ne].
            rewrite lookup_delete. split; [|by intros [? _]]. intros [_ ?]. congruence. }
    split_and!; [done|intros n Hn; by rewrite Ht', decide_False|].
    apply map_eq. intros n. rewrite (hirm_data_lookup h' _ n Hh'). destruct (decide (n = name)) as [->|Hn].
    - rewrite lookup_delete. destruct (hirm_lookup h' name) as [y|] eqn:Ey; [|done].
      apply hirm_lookup_iff in Ey as (? & ? & Ht & _). rewrite Ht', decide_True in Ht by done. done.
    - rewrite lookup_delete_ne by done. rewrite (hirm_data_lookup h a n Hh). f_equal. apply option_eq. intros y.
      rewrite !hirm_lookup_iff. setoid_rewrite Ht'. rewrite decide_False by done. simpl.
      split; intros (tb & ir0 & Ht & Hir0 & Hy); exists tb; destruct (decide (tb = cur)) as [->|Hne].
      + destruct (decide (customers_at a cur = {[rc]})) as [Hone|Hone]; rewrite Hicur in Hir0; [done|]. injection Hir0 as <-.
        exists ir. rewrite Hr1, lookup_delete_ne in Hy by done. done.
      + exists ir0. by rewrite Hirms in Hir0.
      + destruct (decide (customers_at a cur = {[rc]})) as [Hone|Hone]; [by destruct (Honly Hone n Hn)|].
        exists ir1. rewrite Hr1, lookup_delete_ne by done. rewrite Hir in Hir0. by injection Hir0 as <-.
      + exists ir0. by rewrite Hirms. }
  assert (bool_decide (size (customers_at a cur) = 1) = bool_decide (customers_at a cur = {[rc]})) as Hsz.
  { apply bool_decide_ext. split.
    - intros Hs. apply size_1_elem_of in Hs as [z Hz]. apply set_eq. intros i. rewrite Hz in Hin |- *. set_solver.
    - intros ->. apply size_singleton. }
  rewrite Hsz. destruct (decide (customers_at a cur = {[rc]})) as [Hone|Hone];
    [rewrite (bool_decide_eq_true_2 _ Hone)|rewrite (bool_decide_eq_false_2 _ Hone)].
  - destruct (Hfin (delete cur (h_irms h))) as (Hh' & Ht & Hd).
    { intros tb Hne. by rewrite lookup_delete_ne. } { apply lookup_delete. }
    rewrite bool_decide_eq_true_2.
    2:{ rewrite Hr1. apply map_empty. intros n. destruct (decide (n = name)) as [->|Hn]; [apply lookup_delete|].
        rewrite lookup_delete_ne by done. destruct (i_rels ir !! n) as [y|] eqn:Ey; [|done]. exfalso.
        destruct (irm_schema_lookup _ ir A n y HA Ey) as (tyn & Htyn & _).
        pose proof (hh_irms _ _ Hh cur) as Hi. rewrite Hir in Hi. destruct Hi as (_ & _ & Hm). apply Hm in Htyn as [Htyn Htn].
        destruct (member h a n tyn Hh Htyn) as (rn & tn & ? & ? & ? & Hrn' & Han & Htn' & _).
        assert (tn = cur) as -> by congruence. assert (rn ∈ customers_at a cur) as Hrin by by apply elem_of_customers_at.
        rewrite Hone in Hrin. apply elem_of_singleton in Hrin as ->. apply Hn. by eapply (code_inj h a). }
    cbn [assert_ obind]. split; [|eauto]. intros h' H. injection H as <-. exists rc. split_and!; done.
  - destruct (Hfin (<[cur := ir1]> (h_irms h))) as (Hh' & Ht & Hd).
    { intros tb Hne. by rewrite lookup_insert_ne. } { apply lookup_insert. }
    cbn [obind]. split; [|eauto]. intros h' H. injection H as <-. exists rc. split_and!; done.
Qed.
End History.
