(** A new HIRM has its declared relations and no observations, whatever its distributions. *)
From Coq Require Import String Ascii.
From stdpp Require Import gmap strings list sorting relations.
From Coq Require Import ZArith Reals Lia.
From Verif Require Import M_base M_crp M_domain M_dist M_relation M_noisy M_irm M_hirm M_pclean_io M_gendb M_gendb_rels M_gendb_state M_pclean
  S_irm S_hirm S_gendb S_gendb_rels S_gendb_state P_base P_hirm_move P_hirm_history P_gendb_data.
Local Open Scope nat_scope.

Section Blank.
Context {V : Type}.
Implicit Types (h : hirm V) (a : any_rel V).

Record blank h : Prop := {
  bl_shaped : shaped h;
  bl_nothing : forall n a, hirm_lookup h n = Some a -> any_data a = ∅;
  bl_coded : coded h;
  bl_codes : forall n rc, h_code h !! n = Some rc -> is_Some (crp_assignments (h_crp h) !! rc);
}.
Lemma add_domains_rels ds : forall (ir : irm V) name ir', add_domains ir name ds = Ok ir' -> i_rels ir' = i_rels ir.
Proof.
  unfold add_domains. induction ds as [|d ds IH]; intros ir name ir' H; cbn [foldM] in H; [by injection H as <-|].
  apply obind_Ok in H as (ir2 & Hs & H). apply IH in H. rewrite H. clear H.
  apply obind_Ok in Hs as (ir3 & H3 & Hs). apply obind_Ok in Hs as (s0 & _ & Hs). apply obind_Ok in Hs as (? & _ & Hs).
  injection Hs as <-. cbn. case_bool_decide; [injection H3 as <-; done|]. apply obind_Ok in H3 as (_ & _ & H3). by injection H3 as <-.
Qed.
Lemma empty_indexed a : any_data a = ∅ -> indexed a.
Proof. intros E l j d e [x Hx]. by rewrite E, lookup_empty in Hx. Qed.
Lemma add_to_irm_rels h ir name t ir' : add_relation_to_irm h ir name t = Ok ir' ->
  exists a, i_rels ir' = <[name := a]> (i_rels ir) /\ any_type a (t_observed t) = t /\ coherent a /\ any_data a = ∅.
Proof.
  intros H. destruct t as [ds o D sp|ds o E sp base]; cbn [add_relation_to_irm] in H.
  - unfold irm_add_clean in H. apply obind_Ok in H as (_ & _ & H). apply obind_Ok in H as (ir1 & H1%add_domains_rels & H).
    apply obind_Ok in H as (rel & Hr & H). injection H as <-. exists (AClean D rel). cbn. rewrite H1.
    unfold rel_new in Hr. apply obind_Ok in Hr as (_ & _ & Hr). injection Hr as <-. done.
  - apply obind_Ok in H as (_ & _ & H). unfold irm_add_with_base in H. apply obind_Ok in H as (_ & _ & H).
    apply obind_Ok in H as (ir1 & H1%add_domains_rels & H). apply obind_Ok in H as (nr & Hn & H). injection H as <-. exists (ANoisy nr).
    unfold noisy_new in Hn. apply obind_Ok in Hn as (rel & Hr & Hn). injection Hn as <-.
    unfold rel_new in Hr. apply obind_Ok in Hr as (_ & _ & Hr). injection Hr as <-. cbn. rewrite H1, !dom_empty_L. done.
Qed.
Lemma crp_incorporate_assignments c i t c' : crp_incorporate c i t = Ok c' ->
  crp_assignments c !! i = None /\ crp_assignments c' = <[i := t]> (crp_assignments c).
Proof.
  intros H. unfold crp_incorporate in H. apply obind_Ok in H as (_ & Ha%assert_Ok%bool_decide_eq_true & H).
  apply obind_Ok in H as (? & _ & H). injection H as <-. done.
Qed.
Lemma add_relation_blank h name t r h' r' : blank h -> hirm_add_relation h name t r = Ok (h', r') ->
  blank h' /\ h_schema h' = <[name := t]> (h_schema h).
Proof.
  intros [B1 B2 [C1 C2] B3] H. unfold hirm_add_relation in H. apply obind_Ok in H as (_ & Hns%assert_Ok%bool_decide_eq_true & H).
  apply obind_Ok in H as ([tb r1] & _ & H). apply obind_Ok in H as (c & Hc%crp_incorporate_assignments & H). destruct Hc as [Hc1 Hc2].
  apply obind_Ok in H as (_ & _ & H). apply obind_Ok in H as (ir & Hir%at_Ok & H). apply obind_Ok in H as (ir' & Ha & H).
  apply obind_Ok in H as (_ & Hnc%assert_Ok%bool_decide_eq_true & H). apply obind_Ok in H as (_ & _ & H). injection H as <- <-.
  cbn [h_code h_rel h_b2n h_crp] in *. apply not_elem_of_dom in Hnc, Hns.
  apply add_to_irm_rels in Ha as (a & Hrels & Ht & Hco & Hd).
  assert (forall n x, hirm_lookup (Hirm (<[name:=t]> (h_schema h)) (<[tb:=ir']>
      match h_irms h !! tb with Some _ => h_irms h | None => <[tb:=irm_empty]> (h_irms h) end)
      (<[name:=add_code h]> (h_code h)) (<[add_code h:=name]> (h_rel h)) (h_push_noisy (h_b2n h) t name) c) n = Some x ->
      n = name /\ x = a \/ n <> name /\ hirm_lookup h n = Some x) as Hl.
  { intros n x (tb' & ir2 & Ht2 & Hir2 & Hx)%hirm_lookup_iff. unfold table_of in Ht2. cbn [h_code h_crp h_irms] in *.
    apply bind_Some in Ht2 as (rc & Hrc & Has). rewrite Hc2 in Has.
    destruct (decide (n = name)) as [->|Hne].
    - left. split; [done|]. rewrite lookup_insert in Hrc. injection Hrc as <-. rewrite lookup_insert in Has. injection Has as <-.
      rewrite lookup_insert in Hir2. injection Hir2 as <-. rewrite Hrels, lookup_insert in Hx. by injection Hx.
    - right. split; [done|]. rewrite lookup_insert_ne in Hrc by done.
      assert (rc <> add_code h) as Hrc' by (intros ->; destruct (B3 _ _ Hrc); congruence).
      rewrite lookup_insert_ne in Has by done. apply hirm_lookup_iff. exists tb'.
      assert (table_of h n = Some tb') as Hto by (unfold table_of; rewrite Hrc; exact Has).
      destruct (decide (tb' = tb)) as [->|Htb].
      + rewrite lookup_insert in Hir2. injection Hir2 as <-. rewrite Hrels, lookup_insert_ne in Hx by done.
        destruct (h_irms h !! tb) as [ir0|] eqn:E.
        * rewrite E in Hir. injection Hir as ->. by exists ir.
        * rewrite lookup_insert in Hir. injection Hir as <-. cbn in Hx. by rewrite lookup_empty in Hx.
      + rewrite lookup_insert_ne in Hir2 by done. exists ir2. split_and!; [done| |done].
        destruct (h_irms h !! tb) eqn:E; [done|]. by rewrite lookup_insert_ne in Hir2. }
  split; [|done]. split.
  - intros n x Hx. cbn [h_schema]. apply Hl in Hx as [[-> ->]|[Hne Hx]].
    + exists t. rewrite lookup_insert. split_and!; [done|done|done|by apply empty_indexed].
    + destruct (B1 n x Hx) as (t' & Ht' & ?). exists t'. by rewrite lookup_insert_ne.
  - intros n x [[-> ->]|[Hne Hx]]%Hl; [done|by eapply B2].
  - split; cbn [h_code].
    + intros n n' rc Hn Hn'. apply lookup_insert_Some in Hn as [[<- <-]|[Hne Hn]]; apply lookup_insert_Some in Hn' as [[<- E]|[Hne' Hn']].
      * done.
      * destruct (B3 _ _ Hn'). congruence.
      * destruct (B3 _ _ Hn). congruence.
      * by eapply C1.
    + intros n Hn. destruct (decide (n = name)) as [->|Hne].
      * exists a. apply hirm_lookup_iff. exists tb, ir'. unfold table_of. cbn [h_code h_crp h_irms]. rewrite Hc2, lookup_insert.
        cbn. rewrite !lookup_insert, Hrels, lookup_insert. done.
      * rewrite lookup_insert_ne in Hn by done. destruct (C2 n Hn) as (x & (tb' & ir0 & Ht0 & Hir0 & Hx)%hirm_lookup_iff).
        exists x. apply hirm_lookup_iff. unfold table_of in *. cbn [h_code h_crp h_irms]. apply bind_Some in Ht0 as (rc & Hrc & Has).
        assert (rc <> add_code h) as Hrc' by (intros ->; destruct (B3 _ _ Hrc); congruence).
        exists tb'. rewrite lookup_insert_ne, Hrc, Hc2 by done. cbn. rewrite lookup_insert_ne by done. destruct (decide (tb' = tb)) as [->|Htb].
        -- exists ir'. rewrite lookup_insert. split_and!; [done|done|]. rewrite Hir0 in Hir. assert (ir = ir0) as -> by congruence.
           by rewrite Hrels, lookup_insert_ne.
        -- exists ir0. rewrite lookup_insert_ne by done. split_and!; [done| |done]. destruct (h_irms h !! tb); [done|]. by rewrite lookup_insert_ne.
  - intros n rc Hrc. cbn [h_code h_crp] in *. rewrite Hc2. apply lookup_insert_Some in Hrc as [[_ <-]|[_ Hrc]]; [rewrite lookup_insert; eauto|].
    apply lookup_insert_is_Some. destruct (decide (add_code h = rc)); [by left|right]. split; [done|by eapply B3].
Qed.
Lemma ctor_visit_blank schema l : forall h r b p h' r' b' p', blank h -> h_schema h ⊆ schema ->
  foldM (ctor_visit schema) (h, r, b, p) l = Ok (h', r', b', p') -> blank h' /\ h_schema h' ⊆ schema.
Proof.
  induction l as [|n l IH]; intros h r b p h' r' b' p' Hb Hs H; cbn [foldM] in H; [by injection H as <- _ _ _|].
  apply obind_Ok in H as ([[[h1 r1] a1] p1] & Hv & H). unfold ctor_visit in Hv. case_bool_decide as Hd; [injection Hv as <- <- <- <-; by eapply IH|].
  apply obind_Ok in Hv as (t & Ht%at_Ok & Hv).
  destruct (match t with TClean _ _ _ _ => true | TNoisy _ _ _ _ base => bool_decide (base ∈ dom (h_schema h)) end).
  - apply obind_Ok in Hv as ([h2 r2] & Ha & Hv). injection Hv as <- <- _ _. apply add_relation_blank in Ha as [Hb' Hs']; [|done].
    eapply IH; [done| |exact H]. rewrite Hs'. apply insert_subseteq_l; [done|done].
  - injection Hv as <- <- _ _. by eapply IH.
Qed.
Lemma hirm_new_blank schema r h r' : hirm_new schema r = Ok (h, r') -> blank h /\ h_schema h ⊆ schema.
Proof.
  unfold hirm_new. assert (blank hirm_empty /\ h_schema (V:=V) hirm_empty ⊆ schema) as [Hb Hs].
  { split; [|cbn; apply map_empty_subseteq]. split.
    - intros n a Ha%hirm_lookup_iff. destruct Ha as (? & ? & Ht & _). unfold table_of in Ht. cbn in Ht. by rewrite lookup_empty in Ht.
    - intros n a Ha%hirm_lookup_iff. destruct Ha as (? & ? & Ht & _). unfold table_of in Ht. cbn in Ht. by rewrite lookup_empty in Ht.
    - split; cbn; [intros n n' rc H; by rewrite lookup_empty in H|]. intros n [? H]. by rewrite lookup_empty in H.
    - intros n rc H. cbn in H. by rewrite lookup_empty in H. }
  revert Hb Hs. generalize (hirm_empty (V:=V)) as h0. revert r. induction (S (size schema)) as [|fuel IH]; intros r h0 Hb Hs H; cbn [ctor_loop] in H; [done|].
  apply obind_Ok in H as ([[[h1 r1] a1] p1] & Hv & H). apply ctor_visit_blank in Hv as [Hb1 Hs1]; [|done|done].
  destruct p1; cbn [negb] in H; [|injection H as <- <-; done]. destruct a1; cbn [negb] in H; [|done]. by eapply IH.
Qed.
End Blank.
