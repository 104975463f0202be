(** HIRM: the Gibbs move of a relation between clusters. *)
From Coq Require Import String Ascii.
From stdpp Require Import gmap strings sorting.
From Coq Require Import ZArith Reals Lia.
From Verif Require Import M_base M_math M_crp M_domain M_dist M_relation M_noisy M_irm M_logp M_hirm
  S_crp S_crp_state S_relation S_irm S_hirm P_base P_math P_crp P_crp_score P_domain P_relation P_any P_irm P_irm_schema
  P_irm_history P_hirm P_hirm_move.

Section Trans.
Context {V : Type}.
Implicit Types (h : hirm V) (ir : irm V) (A : clustering) (t ty : t_rel V) (a : seating).

Lemma elem_of_snoc (l : list Z) (x y : Z) : x ∈ l ++ [y] <-> x ∈ l \/ x = y.
Proof. by rewrite elem_of_app, elem_of_list_singleton. Qed.

(** ** Trying the candidate tables *)
Record tried h (name : string) ty (data : gmap items_t V) (cur : Z) (seen : list Z) (st : trial V) : Prop := {
  td_irms : forall tb, match tr_irms st !! tb, h_irms h !! tb with
    | Some ir', Some ir =>
      if decide (tb ∈ seen /\ tb <> cur) then grown (schema_arity (h_schema h)) name ty data ir ir' else ir' = ir
    | None, None => True
    | _, _ => False
    end;
  td_aux : match tr_aux st with
    | None => forall tb, tb ∈ seen -> is_Some (h_irms h !! tb)
    | Some (tn, ir) => tn ∈ seen /\ h_irms h !! tn = None /\ grown (schema_arity (h_schema h)) name ty data irm_empty ir /\
        forall tb, tb ∈ seen -> tb = tn \/ is_Some (h_irms h !! tb)
    end;
  td_len : length (tr_logps st) = length seen;
}.

Lemma tried_nil h name ty data cur r : tried h name ty data cur [] (Trial (h_irms h) None [] r).
Proof.
  split; simpl; [|intros tb Htb; by apply elem_of_nil in Htb|done]. intros tb. by destruct (h_irms h !! tb).
Qed.

Lemma irm_at_other h a name ty cur tb ir : hirm_holds h a -> h_schema h !! name = Some ty -> table_of h name = Some cur ->
  h_irms h !! tb = Some ir -> tb <> cur -> name ∉ dom (i_rels ir) /\ i_schema ir !! name = None.
Proof.
  intros Hh Hty Hcur Hir Hne. pose proof (hh_irms _ _ Hh tb) as Hi. rewrite Hir in Hi. destruct Hi as (_ & [A HA] & Hm).
  assert (i_schema ir !! name = None) as Hs.
  { destruct (i_schema ir !! name) as [ty'|] eqn:E; [|done]. apply Hm in E as [_ E]. congruence. }
  split; [|done]. intros Hd. apply elem_of_dom in Hd as [y Hy].
  destruct (irm_schema_lookup _ ir A name y HA Hy) as (tyn & Htyn & _). congruence.
Qed.
Lemma irm_at_holds h a tb ir : hirm_holds h a -> h_irms h !! tb = Some ir -> exists A, irm_holds (schema_arity (h_schema h)) ir A.
Proof. intros Hh Hir. pose proof (hh_irms _ _ Hh tb) as Hi. rewrite Hir in Hi. by destruct Hi as (_ & ? & _). Qed.

Lemma try_table_spec h a o name ty x cur w seen st tb :
  hirm_holds h a -> orders_ok o -> h_schema h !! name = Some ty -> hirm_lookup h name = Some x -> table_of h name = Some cur ->
  tried h name ty (any_data x) cur seen st -> tb ∉ seen ->
  (forall st', try_table h o name ty (any_data x) cur w st tb = Ok st' -> tried h name ty (any_data x) cur (seen ++ [tb]) st') /\
  (hirm_closed h -> tr_aux st = None \/ is_Some (h_irms h !! tb) ->
     exists st', try_table h o name ty (any_data x) cur w st tb = Ok st').
Proof.
  intros Hh Ho Hty Hx Hcur Hst Hnew.
  set (ar := schema_arity (h_schema h)) in *. set (h1 := h_set_irms h (tr_irms st)).
  assert (lookup_arity ar (hirm_lookup h1)) as Hlk.
  { apply irms_arity. intros tb' ir' H'. pose proof (td_irms _ _ _ _ _ _ _ Hst tb') as Hi. rewrite H' in Hi.
    destruct (h_irms h !! tb') as [ir|] eqn:E; [|done]. destruct (decide _); [by apply Hi|]. subst ir'. by eapply irm_at_holds. }
  assert (forall b y, b <> name -> hirm_lookup h b = Some y -> hirm_lookup h1 b = Some y) as Hkeep.
  { intros b y Hb Hy. eapply irms_lookup; [|done]. intros tb' ir Hir Hy'. pose proof (td_irms _ _ _ _ _ _ _ Hst tb') as Hi.
    rewrite Hir in Hi. destruct (tr_irms st !! tb') as [ir'|]; [|done]. exists ir'. split; [done|].
    destruct (decide _); [|by subst]. by rewrite (gr_other _ _ _ _ _ _ Hi b Hb). }
  assert (forall ir A r, irm_holds ar ir A ->
    (forall ir' r', try_fill h1 o name ty (any_data x) ir r = Ok (ir', r') -> grown ar name ty (any_data x) ir ir') /\
    (hirm_closed h -> name ∉ dom (i_rels ir) -> exists st', try_fill h1 o name ty (any_data x) ir r = Ok st')) as Hfill.
  { intros ir A r HA. destruct (try_fill_spec ar h1 o ir A name ty (any_data x) r HA) as [Hf1 Hf2].
    { apply (hh_lawful _ _ Hh name ty Hty). }
    { unfold ar, schema_arity. by rewrite Hty. }
    { intros b Hb. destruct (base_facts h a name ty b Hh Hty Hb) as (_ & tyb & Htb & Hle). exists (length (t_domains tyb)).
      split; [|done]. unfold ar, schema_arity. by rewrite Htb. }
    { done. } { done. }
    split; [done|]. intros Hclosed Hn. apply Hf2; [done|by apply (hh_domains _ _ Hh name)| |].
    - intros b Hb. destruct (base_facts h a name ty b Hh Hty Hb) as (Hbn & tyb & Htb & Hle).
      destruct (member h a b tyb Hh Htb) as (? & ? & ? & ? & y & _ & _ & _ & _ & _ & _ & _ & _ & Hy). exists y. by apply Hkeep.
    - intros k v Hk. eapply closed_accepts; try done. intros b y Hb Hy. apply Hkeep; [|done].
      by destruct (base_facts h a name ty b Hh Hty Hb) as [? _]. }
  destruct (member h a name ty Hh Hty) as (rc & cur' & irc & Ac & x' & Hrc & Hcur' & Htab & Hirc & HAc & Hsn & Hrn & Htx & Hx').
  rewrite Hx in Hx'. injection Hx' as <-. rewrite Hcur in Htab. injection Htab as <-.
  unfold try_table. fold h1.
  pose proof (td_irms _ _ _ _ _ _ _ Hst tb) as Hi. destruct (tr_irms st !! tb) as [ir'|] eqn:Etr.
  - destruct (h_irms h !! tb) as [ir|] eqn:Eir; [|done].
    rewrite decide_False in Hi by (intros [? _]; done). subst ir'.
    assert (forall ir' lp r', (if decide (tb = cur) then ir' = ir else grown ar name ty (any_data x) ir ir') ->
      tried h name ty (any_data x) cur (seen ++ [tb]) (Trial (<[tb := ir']> (tr_irms st)) (tr_aux st) (tr_logps st ++ [lp]) r')) as Hnext.
    { intros ir' lp r' Hg. split; simpl.
      - intros tb'. destruct (decide (tb' = tb)) as [->|Hne].
        + rewrite lookup_insert, Eir. destruct (decide (tb = cur)) as [->|Hc].
          * rewrite decide_False; [done|]. by intros [_ ?].
          * rewrite decide_True; [done|]. split; [|done]. set_solver.
        + rewrite lookup_insert_ne by done. pose proof (td_irms _ _ _ _ _ _ _ Hst tb') as Hi.
          destruct (tr_irms st !! tb') as [ir1|], (h_irms h !! tb') as [ir2|]; try done.
          destruct (decide (tb' ∈ seen /\ tb' <> cur)) as [[? ?]|Hn].
          * rewrite decide_True; [done|]. split; [set_solver|done].
          * rewrite decide_False; [done|]. intros [Hin Hc]. apply Hn. split; [|done]. set_solver.
      - pose proof (td_aux _ _ _ _ _ _ _ Hst) as Hax. destruct (tr_aux st) as [[tn irn]|].
        + destruct Hax as (? & ? & ? & Hall). split_and!; [set_solver|done|done|]. intros tb' Htb'.
          apply elem_of_snoc in Htb' as [?| ->]; [auto|]. right. eauto.
        + intros tb' Htb'. apply elem_of_snoc in Htb' as [?| ->]; eauto.
      - rewrite !app_length. rewrite (td_len _ _ _ _ _ _ _ Hst). done. }
    destruct (irm_at_holds h a tb ir Hh Eir) as [A HA]. destruct (Hfill ir A (tr_rng st) HA) as [Hf1 Hf2].
    case_bool_decide as Hc.
    + subst tb. cbn [obind]. rewrite Hirc in Eir. injection Eir as <-. rewrite Hrn. cbn [at_ obind]. split; [|eauto].
      intros st' H. injection H as <-. apply Hnext. by rewrite decide_True.
    + split.
      * intros st' H. apply obind_Ok in H as ([ir' r'] & Hf & H). apply obind_Ok in H as (y & Hy & H). injection H as <-.
        apply Hnext. rewrite decide_False by done. by eapply Hf1.
      * intros Hclosed _. destruct Hf2 as ([ir' r'] & Hf); [done|by eapply (irm_at_other h a name ty cur tb ir)|].
        rewrite Hf. cbn [obind]. destruct (gr_rel _ _ _ _ _ _ (Hf1 _ _ Hf)) as (y & Hy & _). rewrite Hy. cbn [at_ obind]. eauto.
  - destruct (h_irms h !! tb) as [ir|] eqn:Eir; [done|].
    assert (tb <> cur) as Hc by (intros ->; congruence). rewrite bool_decide_eq_false_2 by done.
    assert (irm_holds ar (@irm_empty V) ∅) as HE by apply irm_holds_empty.
    destruct (Hfill irm_empty ∅ (tr_rng st) HE) as [Hf1 Hf2].
    pose proof (td_aux _ _ _ _ _ _ _ Hst) as Hax. destruct (tr_aux st) as [[tn irn]|] eqn:Eax.
    { split; [done|]. intros _ [?|[? ?]]; done. }
    cbn [assert_ obind]. split.
    + intros st' H. apply obind_Ok in H as ([ir' r'] & Hf & H). apply obind_Ok in H as (y & Hy & H). injection H as <-.
      apply Hf1 in Hf. split; simpl.
      * intros tb'. pose proof (td_irms _ _ _ _ _ _ _ Hst tb') as Hi'.
        destruct (tr_irms st !! tb') as [ir1|], (h_irms h !! tb') as [ir2|] eqn:E2; try done.
        destruct (decide (tb' ∈ seen /\ tb' <> cur)) as [[? ?]|Hn].
        -- rewrite decide_True; [done|]. split; [set_solver|done].
        -- rewrite decide_False; [done|]. intros [Hin Hcc]. apply Hn. split; [|done].
           apply elem_of_snoc in Hin as [?| ->]; [done|congruence].
      * split_and!; [set_solver|done|done|]. intros tb' Htb'.
        apply elem_of_snoc in Htb' as [?| ->]; [right|left]; auto.
      * rewrite !app_length. rewrite (td_len _ _ _ _ _ _ _ Hst). done.
    + intros Hclosed _. destruct Hf2 as ([ir' r'] & Hf); [done| |].
      { simpl. rewrite dom_empty. set_solver. }
      rewrite Hf. cbn [obind]. destruct (gr_rel _ _ _ _ _ _ (Hf1 _ _ Hf)) as (y & Hy & _). rewrite Hy. cbn [at_ obind]. eauto.
Qed.

Lemma try_loop h a o name ty x cur w l :
  hirm_holds h a -> orders_ok o -> h_schema h !! name = Some ty -> hirm_lookup h name = Some x -> table_of h name = Some cur ->
  forall seen st, tried h name ty (any_data x) cur seen st -> NoDup (seen ++ l) ->
  (forall st', foldM (try_table h o name ty (any_data x) cur w) st l = Ok st' -> tried h name ty (any_data x) cur (seen ++ l) st') /\
  (hirm_closed h -> forall tnew, (forall tb, tb ∈ seen ++ l -> tb = tnew \/ is_Some (h_irms h !! tb)) ->
     exists st', foldM (try_table h o name ty (any_data x) cur w) st l = Ok st').
Proof.
  intros Hh Ho Hty Hx Hcur. induction l as [|tb l IH]; intros seen st Hst Hnd; cbn [foldM].
  { rewrite app_nil_r. split; [intros st' H; by simplify_eq|eauto]. }
  assert (tb ∉ seen) as Hnew.
  { intros Hin. apply NoDup_app in Hnd as (_ & Hd & _). apply (Hd tb Hin). left. }
  destruct (try_table_spec h a o name ty x cur w seen st tb Hh Ho Hty Hx Hcur Hst Hnew) as [Hs1 Hs2].
  assert (seen ++ tb :: l = (seen ++ [tb]) ++ l) as Happ by by rewrite <- app_assoc.
  rewrite Happ in Hnd |- *. split.
  - intros st' H. apply obind_Ok in H as (st1 & H1 & H). apply Hs1 in H1.
    by apply (proj1 (IH (seen ++ [tb]) st1 H1 Hnd)).
  - intros Hclosed tnew Hall. destruct (Hs2 Hclosed) as (st1 & H1).
    { pose proof (td_aux _ _ _ _ _ _ _ Hst) as Hax. destruct (tr_aux st) as [[tn irn]|]; [|by left]. right.
      destruct Hax as (Hin & Hnone & _). destruct (Hall tb) as [->|?]; [set_solver| |done].
      destruct (Hall tn) as [->|[? ?]]; [set_solver|done|congruence]. }
    rewrite H1. cbn [obind]. apply (proj2 (IH (seen ++ [tb]) st1 (Hs1 _ H1) Hnd)) with tnew; [done|]. done.
Qed.

(** ** Taking the relation out again *)
Definition settled_at h (name : string) ty (data : gmap items_t V) (choice : Z) (tb : Z) (o : option (irm V)) : Prop :=
  match o with
  | Some ir => (exists A, irm_holds (schema_arity (h_schema h)) ir A) /\
      (forall n, n <> name -> i_rels ir !! n = i_rels (irm_at h tb) !! n) /\
      (forall n, n <> name -> i_schema ir !! n = i_schema (irm_at h tb) !! n) /\
      (if decide (tb = choice) then i_schema ir !! name = Some ty /\ exists x, i_rels ir !! name = Some x /\ any_data x = data
       else i_schema ir !! name = None /\ exists n, is_Some (i_schema ir !! n))
  | None => tb <> choice /\ forall n, n <> name -> i_schema (irm_at h tb) !! n = None
  end.

Lemma cluster_relation h a tb ir : hirm_holds h a -> h_irms h !! tb = Some ir ->
  exists n ty y, h_schema h !! n = Some ty /\ table_of h n = Some tb /\ i_schema ir !! n = Some ty /\ i_rels ir !! n = Some y.
Proof.
  intros Hh Hir. pose proof (hh_irms _ _ Hh tb) as Hi. rewrite Hir in Hi. destruct Hi as (Hcu & [A HA] & Hm).
  apply set_choose_L in Hcu as [i Hi]. apply elem_of_customers_at in Hi.
  assert (is_Some (h_rel h !! i)) as [n Hn] by (apply (hh_seated _ _ Hh); eauto).
  apply (hh_codes _ _ Hh) in Hn. assert (is_Some (h_schema h !! n)) as [tyn Htyn] by (apply (hh_schema _ _ Hh); eauto).
  assert (table_of h n = Some tb) as Ht by (unfold table_of; rewrite Hn; simpl; by rewrite (hs_assign _ _ (hh_crp _ _ Hh))).
  assert (i_schema ir !! n = Some tyn) as Hs by by apply Hm.
  destruct (irm_rel_lookup _ ir A n tyn HA Hs) as (y & Hy & _). eauto 10.
Qed.

(** The last relation of a cluster. *)
Lemma last_of_cluster h a name rc cur ir : hirm_holds h a -> h_code h !! name = Some rc -> a !! rc = Some cur ->
  h_irms h !! cur = Some ir -> delete name (i_rels ir) = ∅ -> customers_at a cur = {[rc]}.
Proof.
  intros Hh Hrc Hcur Hir He. pose proof (hh_irms _ _ Hh cur) as Hi. rewrite Hir in Hi. destruct Hi as (_ & [A HA] & Hm).
  apply set_eq. intros i. rewrite elem_of_customers_at, elem_of_singleton. split; [|by intros ->]. intros Hi.
  assert (is_Some (h_rel h !! i)) as [n Hn] by (apply (hh_seated _ _ Hh); eauto).
  apply (hh_codes _ _ Hh) in Hn. assert (is_Some (h_schema h !! n)) as [tyn Htyn] by (apply (hh_schema _ _ Hh); eauto).
  assert (table_of h n = Some cur) as Ht by (unfold table_of; rewrite Hn; simpl; by rewrite (hs_assign _ _ (hh_crp _ _ Hh))).
  assert (i_schema ir !! n = Some tyn) as Hs by by apply Hm.
  destruct (irm_rel_lookup _ ir A n tyn HA Hs) as (y & Hy & _).
  destruct (decide (n = name)) as [->|Hne]; [congruence|].
  apply (f_equal (fun m : gmap string (any_rel V) => m !! n)) in He. rewrite lookup_delete_ne, lookup_empty in He by done. congruence.
Qed.

Lemma untry_table_spec h a o name ty x rc cur choice irms seen st tb :
  hirm_holds h a -> orders_ok o -> h_schema h !! name = Some ty -> hirm_lookup h name = Some x ->
  h_code h !! name = Some rc -> a !! rc = Some cur ->
  tried h name ty (any_data x) cur seen st -> tb ∈ seen -> is_Some (h_irms h !! tb) -> irms !! tb = tr_irms st !! tb ->
  exists irms', untry_table o (h_crp h) name cur choice irms tb = Ok irms' /\
    (forall tb', tb' <> tb -> irms' !! tb' = irms !! tb') /\
    settled_at h name ty (any_data x) choice tb (irms' !! tb).
Proof.
  intros Hh Ho Hty Hx Hrc Hcur Hst Hin [ir Hir] Hsame.
  pose proof (td_irms _ _ _ _ _ _ _ Hst tb) as Hi. rewrite Hir in Hi.
  destruct (tr_irms st !! tb) as [ir'|] eqn:Etr; [|done].
  destruct (member h a name ty Hh Hty) as (rc' & cur' & irc & Ac & x' & Hrc' & Hcur' & Htab & Hirc & HAc & Hsn & Hrn & Htx & Hx').
  rewrite Hx in Hx'. injection Hx' as <-. rewrite Hrc in Hrc'. injection Hrc' as <-. rewrite Hcur in Hcur'. injection Hcur' as <-.
  set (ar := schema_arity (h_schema h)) in *.
  assert ((exists A, irm_holds ar ir' A) /\ (forall n, n <> name -> i_rels ir' !! n = i_rels ir !! n) /\
    (forall n, n <> name -> i_schema ir' !! n = i_schema ir !! n) /\ i_schema ir' !! name = Some ty /\
    exists y, i_rels ir' !! name = Some y /\ any_data y = any_data x) as ([A' HA'] & Hor & Hos & Hs' & y & Hy & Hdy).
  { destruct (decide (tb ∈ seen /\ tb <> cur)) as [[_ Hne]|Hn].
    - split_and!; try by apply Hi.
      + intros n Hn. by apply (grown_settled_other _ _ _ _ _ _ n Hi).
      + rewrite (gr_schema _ _ _ _ _ _ Hi). apply lookup_insert.
      + destruct (gr_rel _ _ _ _ _ _ Hi) as (y & ? & ? & _). eauto.
    - assert (tb = cur) as -> by (destruct (decide (tb = cur)); [done|tauto]). subst ir'.
      rewrite Hirc in Hir. injection Hir as <-. split_and!; eauto. }
  assert (irm_at h tb = ir) as Hat by (unfold irm_at; by rewrite Hir).
  unfold untry_table. rewrite Hsame. cbn [at_ obind]. case_bool_decide as Hch.
  - cbn [obind]. rewrite bool_decide_eq_false_2.
    2:{ intros He. rewrite He, lookup_empty in Hy. done. }
    exists (<[tb := ir']> irms). split; [done|]. split; [intros tb' Hne; by rewrite lookup_insert_ne|].
    rewrite lookup_insert. cbn [settled_at]. rewrite decide_True by done. rewrite Hat. split_and!; eauto.
  - rewrite bool_decide_eq_true_2 by (apply elem_of_dom; eauto). cbn [assert_ obind].
    destruct (irm_remove_spec ar o ir' A' name y HA' Ho Hy) as (ir2 & A2 & H2 & HA2 & Hr2 & Hs2 & _).
    rewrite H2. cbn [obind]. case_bool_decide as He.
    + assert (tb = cur) as ->.
      { destruct (decide (tb = cur)) as [|Hne]; [done|]. exfalso.
        destruct (cluster_relation h a tb ir Hh Hir) as (n & tyn & yn & _ & Htn & _ & Hyn).
        assert (n <> name) as Hnn by (intros ->; congruence).
        rewrite Hr2 in He. apply (f_equal (fun m : gmap string (any_rel V) => m !! n)) in He.
        rewrite lookup_delete_ne, lookup_empty, (Hor n Hnn) in He by done. congruence. }
      assert (delete name (i_rels ir) = ∅) as Hd.
      { apply map_empty. intros n. destruct (decide (n = name)) as [->|Hne]; [by rewrite lookup_delete|].
        rewrite lookup_delete_ne by done. rewrite <- (Hor n Hne).
        apply (f_equal (fun m : gmap string (any_rel V) => m !! n)) in He. rewrite Hr2, lookup_delete_ne, lookup_empty in He by done. done. }
      pose proof (last_of_cluster h a name rc cur ir Hh Hrc Hcur Hir Hd) as Hone.
      rewrite (hs_tables _ _ (hh_crp _ _ Hh) cur), Hone. rewrite decide_False by set_solver. cbn [at_ obind].
      rewrite bool_decide_eq_true_2 by apply size_singleton. rewrite bool_decide_eq_true_2 by done. cbn [assert_ obind].
      exists (delete cur irms). split; [done|]. split; [intros tb' Hne; by rewrite lookup_delete_ne|].
      rewrite lookup_delete. cbn [settled_at]. split; [done|]. intros n Hn. rewrite Hat.
      destruct (i_schema ir !! n) as [tyn|] eqn:E; [|done]. destruct (irm_at_holds h a cur ir Hh Hir) as [A HA].
      destruct (irm_rel_lookup _ ir A n tyn HA E) as (yn & Hyn & _).
      apply (f_equal (fun m : gmap string (any_rel V) => m !! n)) in Hd. rewrite lookup_delete_ne, lookup_empty in Hd by done. congruence.
    + exists (<[tb := ir2]> irms). split; [done|]. split; [intros tb' Hne; by rewrite lookup_insert_ne|].
      rewrite lookup_insert. cbn [settled_at]. rewrite decide_False by done. rewrite Hat. split_and!.
      * eauto.
      * intros n Hn. rewrite Hr2, lookup_delete_ne by done. auto.
      * intros n Hn. rewrite Hs2, lookup_delete_ne by done. auto.
      * rewrite Hs2. apply lookup_delete.
      * apply map_choose in He as (n & yn & Hyn). exists n.
        destruct (irm_schema_lookup _ ir2 A2 n yn HA2 Hyn) as (tyn & Htyn & _). eauto.
Qed.

Lemma untry_loop h a o name ty x rc cur choice seen st l :
  hirm_holds h a -> orders_ok o -> h_schema h !! name = Some ty -> hirm_lookup h name = Some x ->
  h_code h !! name = Some rc -> a !! rc = Some cur ->
  tried h name ty (any_data x) cur seen st -> NoDup l -> (forall tb, tb ∈ l -> tb ∈ seen /\ is_Some (h_irms h !! tb)) ->
  forall irms, (forall tb, tb ∈ l -> irms !! tb = tr_irms st !! tb) ->
  exists irms', foldM (untry_table o (h_crp h) name cur choice) irms l = Ok irms' /\
    (forall tb, tb ∉ l -> irms' !! tb = irms !! tb) /\
    (forall tb, tb ∈ l -> settled_at h name ty (any_data x) choice tb (irms' !! tb)).
Proof.
  intros Hh Ho Hty Hx Hrc Hcur Hst. induction l as [|tb l IH]; intros Hnd Hl irms Hirms; cbn [foldM].
  { exists irms. split_and!; [done|done|]. intros tb Htb. by apply elem_of_nil in Htb. }
  apply NoDup_cons in Hnd as [Htb Hnd].
  destruct (untry_table_spec h a o name ty x rc cur choice irms seen st tb) as (irms1 & H1 & Hk & Hs); try done.
  { apply Hl. left. } { apply Hl. left. } { apply Hirms. left. }
  rewrite H1. cbn [obind].
  destruct (IH Hnd) with (irms := irms1) as (irms' & H' & Hk' & Hs').
  { intros tb' Htb'. apply Hl. by right. }
  { intros tb' Htb'. rewrite Hk by (intros ->; done). apply Hirms. by right. }
  exists irms'. split_and!; [done| |].
  - intros tb' Hn. rewrite Hk' by (intros Hin; apply Hn; by right). apply Hk. intros ->. apply Hn. left.
  - intros tb' Hin. apply elem_of_cons in Hin as [->|Hin]; [|by apply Hs']. by rewrite Hk'.
Qed.

(** ** The candidate tables *)
Lemma candidate_tables h a name rc cur : hirm_holds h a -> h_code h !! name = Some rc -> a !! rc = Some cur ->
  exists w tnew, crp_tables_weights_gibbs (h_crp h) cur = Ok w /\ NoDup (sorted_keys w) /\
    (forall tb, is_Some (h_irms h !! tb) -> tb ∈ sorted_keys w) /\
    (forall tb, tb ∈ sorted_keys w -> tb = tnew \/ is_Some (h_irms h !! tb)).
Proof.
  intros Hh Hrc Hcur. destruct (gibbs_weights (h_crp h) a rc cur (hh_crp _ _ Hh) Hcur) as (w & tnew & Hw & Hnew & Hone & Hlk & _).
  exists w, tnew. split_and!; [done|apply NoDup_sorted_keys| |].
  - intros tb [ir Hir]. apply elem_of_sorted_keys. rewrite Hlk.
    pose proof (hh_irms _ _ Hh tb) as Hi. rewrite Hir in Hi. destruct Hi as [Hne _].
    destruct (decide (customers_at (delete rc a) tb = ∅)) as [He|]; [|eauto].
    assert (customers_at a tb = {[rc]}) as Hsing.
    { apply set_eq. intros i. rewrite elem_of_singleton. split.
      - intros Hi. apply elem_of_customers_at in Hi. destruct (decide (i = rc)) as [|Hn]; [done|].
        assert (i ∈ customers_at (delete rc a) tb) as Hin by (apply elem_of_customers_at; by rewrite lookup_delete_ne).
        rewrite He in Hin. set_solver.
      - intros ->. apply set_choose_L in Hne as [j Hj]. destruct (decide (j = rc)) as [->|Hn]; [done|].
        apply elem_of_customers_at in Hj.
        assert (j ∈ customers_at (delete rc a) tb) as Hin by (apply elem_of_customers_at; by rewrite lookup_delete_ne).
        rewrite He in Hin. set_solver. }
    assert (tb = cur) as ->.
    { assert (rc ∈ customers_at a tb) as Hin by (rewrite Hsing; set_solver). apply elem_of_customers_at in Hin. congruence. }
    rewrite decide_True by (symmetry; by apply Hone). eauto.
  - intros tb Htb. apply elem_of_sorted_keys in Htb. rewrite Hlk in Htb.
    destruct (decide (customers_at (delete rc a) tb = ∅)) as [He|Hne].
    + destruct (decide (tb = tnew)); [by left|by destruct Htb].
    + right. pose proof (hh_irms _ _ Hh tb) as Hi. destruct (h_irms h !! tb) as [ir|]; [eauto|]. exfalso.
      apply Hne. apply set_eq. intros i. split; [|set_solver]. intros Hin. apply elem_of_customers_at in Hin.
      destruct (decide (i = rc)) as [->|Hn]; [by rewrite lookup_delete in Hin|]. rewrite lookup_delete_ne in Hin by done.
      apply elem_of_customers_at in Hin. rewrite Hi in Hin. done.
Qed.

(** ** The move *)
Lemma settle_spec h a o name ty x rc cur choice seen st :
  hirm_holds h a -> orders_ok o -> h_schema h !! name = Some ty -> hirm_lookup h name = Some x ->
  h_code h !! name = Some rc -> a !! rc = Some cur -> tried h name ty (any_data x) cur seen st ->
  (forall tb, is_Some (h_irms h !! tb) -> tb ∈ seen) -> choice ∈ seen ->
  (forall h', hirm_settle o h name choice st = Ok h' -> moved h a h' name choice) /\
  (hirm_listed h -> exists h', hirm_settle o h name choice st = Ok h').
Proof.
  intros Hh Ho Hty Hx Hrc Hcur Hst Hall Hch. unfold hirm_settle. rewrite Hrc. cbn [at_ obind].
  rewrite (hs_assign _ _ (hh_crp _ _ Hh)), Hcur. cbn [at_ obind].
  set (l := sorted_keys (crp_tables (h_crp h))).
  assert (forall tb, tb ∈ l <-> is_Some (h_irms h !! tb)) as Hl.
  { intros tb. unfold l. rewrite elem_of_sorted_keys, <- !elem_of_dom. by rewrite (holds_dom_irms h a Hh). }
  destruct (untry_loop h a o name ty x rc cur choice seen st l) with (irms := tr_irms st) as (irms & H1 & Hk & Hs); try done.
  { apply NoDup_sorted_keys. }
  { intros tb Htb. apply Hl in Htb. auto. }
  rewrite H1. cbn [obind].
  set (irms' := match tr_aux st with Some (tn, ir) => if bool_decide (choice = tn) then <[choice := ir]> irms else irms | None => irms end).
  assert (settled h name ty (any_data x) choice irms') as Hset.
  { intros tb. change (settled_at h name ty (any_data x) choice tb (irms' !! tb)).
    destruct (decide (is_Some (h_irms h !! tb))) as [Hsome|Hnone].
    - assert (irms' !! tb = irms !! tb) as ->; [|by apply Hs, Hl].
      unfold irms'. pose proof (td_aux _ _ _ _ _ _ _ Hst) as Hax. destruct (tr_aux st) as [[tn irn]|]; [|done].
      case_bool_decide; [|done]. subst tn. destruct Hax as (_ & Hn & _). rewrite lookup_insert_ne; [done|].
      intros ->. rewrite Hn in Hsome. by destruct Hsome.
    - assert (irms !! tb = None) as Hno.
      { rewrite Hk by (rewrite Hl; done). pose proof (td_irms _ _ _ _ _ _ _ Hst tb) as Hi.
        destruct (h_irms h !! tb); [exfalso; eauto|]. by destruct (tr_irms st !! tb). }
      assert (irm_at h tb = irm_empty) as Hat.
      { unfold irm_at. destruct (h_irms h !! tb); [exfalso; eauto|done]. }
      unfold irms'. pose proof (td_aux _ _ _ _ _ _ _ Hst) as Hax. destruct (tr_aux st) as [[tn irn]|].
      + destruct Hax as (Htn & Hn & Hg & Hax). case_bool_decide as Hc.
        * subst tn. destruct (decide (tb = choice)) as [->|Hne].
          -- rewrite lookup_insert. cbn [settled_at]. rewrite decide_True by done. rewrite Hat. split_and!.
             ++ apply Hg.
             ++ intros n Hnn. by apply (grown_settled_other _ _ _ _ _ _ n Hg).
             ++ intros n Hnn. by apply (grown_settled_other _ _ _ _ _ _ n Hg).
             ++ rewrite (gr_schema _ _ _ _ _ _ Hg). apply lookup_insert.
             ++ destruct (gr_rel _ _ _ _ _ _ Hg) as (y & ? & ? & _). eauto.
          -- rewrite lookup_insert_ne, Hno by done. cbn [settled_at]. split; [done|]. intros n _. rewrite Hat. apply lookup_empty.
        * rewrite Hno. cbn [settled_at]. split; [|intros n _; rewrite Hat; apply lookup_empty].
          intros ->. destruct (Hax choice Hch) as [->|?]; done.
      + rewrite Hno. cbn [settled_at]. split; [|intros n _; rewrite Hat; apply lookup_empty]. intros ->. by apply Hnone, Hax. }
  destruct (move_crp h a rc cur choice Hh Hcur) as (c1 & c & Hc1 & Hc2 & Hc).
  pose proof (finish_move h a name ty x rc cur choice irms' c1 c Hh Hty Hx Hrc Hcur Hset Hc1 Hc2) as Hm.
  rewrite Hc1. cbn [obind]. rewrite Hc2. cbn [obind]. split.
  - intros h' H. apply obind_Ok in H as (u & _ & H). apply obind_Ok in H as (u' & _ & [= <-]). done.
  - intros Hlisted. destruct (Hm) as (rc' & _ & Hh' & _). rewrite (holds_assert_clusters _ _ Hh'). cbn [obind].
    rewrite (update_base_spec _ _ name Hh' Hlisted) by (simpl; eauto). cbn [obind]. eauto.
Qed.

Lemma transition_relation_spec h a o name r :
  hirm_holds h a -> orders_ok o ->
  (forall h' r', hirm_transition_relation o h name r = Ok (h', r') -> exists choice, moved h a h' name choice) /\
  (is_Some (h_schema h !! name) -> hirm_closed h -> hirm_listed h -> exists st, hirm_transition_relation o h name r = Ok st).
Proof.
  intros Hh Ho. unfold hirm_transition_relation, hirm_relation_logps.
  destruct (h_schema h !! name) as [ty|] eqn:Hty.
  2:{ split; [|by intros [? ?]]. intros h' r' H. exfalso. apply obind_Ok in H as (u & H & _).
      apply obind_Ok in H as (tb & Htb & _). apply relation_to_table_Ok in Htb. unfold table_of in Htb.
      destruct (h_code h !! name) as [rc|] eqn:Erc; [|done].
      assert (is_Some (h_schema h !! name)) as [? ?] by (apply (hh_schema _ _ Hh); eauto). congruence. }
  destruct (member h a name ty Hh Hty) as (rc & cur & ir & A & x & Hrc & Hcur & Htab & Hir & HA & Hsn & Hrn & Htx & Hx).
  rewrite (proj2 (relation_to_table_Ok h name cur) Htab). cbn [obind].
  rewrite (proj2 (get_relation_Ok h name x) Hx). cbn [at_ obind].
  destruct (candidate_tables h a name rc cur Hh Hrc Hcur) as (w & tnew & Hw & Hnd & Hin & Hout).
  rewrite Hw. cbn [obind].
  destruct (try_loop h a o name ty x cur w (sorted_keys w) Hh Ho Hty Hx Htab [] _ (tried_nil h name ty (any_data x) cur r)) as [Ht1 Ht2]; [done|].
  cbn [app] in Ht1, Ht2.
  assert (forall st, tried h name ty (any_data x) cur (sorted_keys w) st ->
    exists i r' choice, log_choice (Some <$> tr_logps st) (tr_rng st) = Ok (i, r') /\ sorted_keys w !! i = Some choice /\ choice ∈ sorted_keys w) as Hch.
  { intros st Hst. destruct (log_choice_spec (Some <$> tr_logps st) (tr_rng st)) as (i & r' & Hi & Hlt).
    { assert (cur ∈ sorted_keys w) as Hc by (apply Hin; eauto). pose proof (td_len _ _ _ _ _ _ _ Hst) as Hlen.
      destruct (tr_logps st) as [|lp ?]; [|exists lp; left]. simpl in Hlen. destruct (sorted_keys w); [by apply elem_of_nil in Hc|done]. }
    rewrite fmap_length, (td_len _ _ _ _ _ _ _ Hst) in Hlt. apply lookup_lt_is_Some in Hlt as [choice Hc].
    exists i, r', choice. split_and!; try done. by eapply elem_of_list_lookup_2. }
  split.
  - intros h' r' H. apply obind_Ok in H as ([tables st] & H1 & H). apply obind_Ok in H1 as (st0 & H1 & [= <- <-]).
    specialize (Ht1 _ H1). destruct (Hch _ Ht1) as (i & r1 & choice & Hlc & Hidx & Hc). rewrite Hlc in H. cbn [obind] in H.
    rewrite Hidx in H. cbn [idx_ obind] in H. apply obind_Ok in H as (h1 & H2 & [= <- <-]). exists choice.
    by apply (proj1 (settle_spec h a o name ty x rc cur choice _ _ Hh Ho Hty Hx Hrc Hcur Ht1 Hin Hc)).
  - intros _ Hclosed Hlisted. destruct (Ht2 Hclosed tnew Hout) as (st & H1). rewrite H1. cbn [obind].
    specialize (Ht1 _ H1). destruct (Hch _ Ht1) as (i & r1 & choice & Hlc & Hidx & Hc). rewrite Hlc. cbn [obind]. rewrite Hidx. cbn [idx_ obind].
    destruct (proj2 (settle_spec h a o name ty x rc cur choice _ _ Hh Ho Hty Hx Hrc Hcur Ht1 Hin Hc) Hlisted) as (h' & H2).
    rewrite H2. cbn [obind]. eauto.
Qed.
End Trans.
