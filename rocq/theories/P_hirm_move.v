(** HIRM: moving a relation to another cluster. *)
From Coq Require Import String Ascii.
From stdpp Require Import gmap strings sorting.
From Coq Require Import ZArith Reals Lia.
From Verif Require Import M_base M_math M_crp M_domain M_dist M_relation M_noisy M_irm M_logp M_hirm
  S_crp S_crp_state S_relation S_irm S_hirm P_base P_crp P_crp_score P_domain P_relation P_any P_irm P_irm_schema P_irm_history P_hirm.

Section Move.
Context {V : Type}.
Implicit Types (h : hirm V) (ir : irm V) (A : clustering) (t ty : t_rel V) (a : seating).

(** ** Lookups *)
Lemma relation_to_table_Ok h name tb : relation_to_table h name = Ok tb <-> table_of h name = Some tb.
Proof.
  unfold relation_to_table, table_of. destruct (h_code h !! name) as [rc|]; simpl; [|naive_solver].
  destruct (crp_assignments (h_crp h) !! rc); simpl; naive_solver.
Qed.
Lemma get_relation_Ok h name x : get_relation h name = Ok x <-> hirm_lookup h name = Some x.
Proof. unfold hirm_lookup. destruct (get_relation h name); naive_solver. Qed.
Lemma get_relation_iff h name x : get_relation h name = Ok x <->
  exists tb ir, table_of h name = Some tb /\ h_irms h !! tb = Some ir /\ i_rels ir !! name = Some x.
Proof.
  unfold get_relation, relation_to_irm. split.
  - intros H. apply obind_Ok in H as (ir & H & Hx%at_Ok). apply obind_Ok in H as (tb & H & Hir%at_Ok).
    apply relation_to_table_Ok in H. eauto.
  - intros (tb & ir & Ht & Hir & Hx). apply relation_to_table_Ok in Ht. rewrite Ht. cbn [obind]. rewrite Hir. cbn [at_ obind]. by rewrite Hx.
Qed.
Lemma hirm_lookup_iff h name x : hirm_lookup h name = Some x <->
  exists tb ir, table_of h name = Some tb /\ h_irms h !! tb = Some ir /\ i_rels ir !! name = Some x.
Proof. rewrite <- get_relation_Ok. apply get_relation_iff. Qed.

Lemma member h a name ty : hirm_holds h a -> h_schema h !! name = Some ty ->
  exists rc tb ir A x, h_code h !! name = Some rc /\ a !! rc = Some tb /\ table_of h name = Some tb /\
    h_irms h !! tb = Some ir /\ irm_holds (schema_arity (h_schema h)) ir A /\ i_schema ir !! name = Some ty /\
    i_rels ir !! name = Some x /\ ty = any_type x (t_observed ty) /\ hirm_lookup h name = Some x.
Proof.
  intros Hh Hty. assert (is_Some (h_code h !! name)) as [rc Hrc] by (apply (hh_schema _ _ Hh); eauto).
  assert (is_Some (a !! rc)) as [tb Htb].
  { apply (hh_seated _ _ Hh). exists name. by apply (hh_codes _ _ Hh). }
  assert (table_of h name = Some tb) as Ht.
  { unfold table_of. rewrite Hrc. simpl. by rewrite (hs_assign _ _ (hh_crp _ _ Hh)). }
  pose proof (hh_irms _ _ Hh tb) as Hi. destruct (h_irms h !! tb) as [ir|] eqn:Eir.
  2:{ exfalso. assert (rc ∈ customers_at a tb) as Hin by by apply elem_of_customers_at. rewrite Hi in Hin. set_solver. }
  destruct Hi as (_ & [A HA] & Hm). assert (i_schema ir !! name = Some ty) as Hs by by apply Hm.
  destruct (irm_rel_lookup _ ir A name ty HA Hs) as (x & Hx & Htx & _).
  exists rc, tb, ir, A, x. split_and!; try done. apply hirm_lookup_iff. eauto.
Qed.

Lemma hirm_lookup_declared h a name x : hirm_holds h a -> hirm_lookup h name = Some x ->
  exists ty, h_schema h !! name = Some ty /\ ty = any_type x (t_observed ty).
Proof.
  intros Hh H. assert (is_Some (h_schema h !! name)) as [ty Hty].
  { apply hirm_lookup_iff in H as (tb & ir & Ht & _). unfold table_of in Ht.
    destruct (h_code h !! name) as [rc|] eqn:E; [|done]. apply (hh_schema _ _ Hh). eauto. }
  destruct (member h a name ty Hh Hty) as (rc & tb & ir & A & x' & _ & _ & _ & _ & _ & _ & _ & Htx & Hl).
  rewrite H in Hl. injection Hl as <-. eauto.
Qed.
Lemma hirm_lookup_arity h a : hirm_holds h a -> lookup_arity (schema_arity (h_schema h)) (hirm_lookup h).
Proof.
  intros Hh name x Hx. destruct (hirm_lookup_declared h a name x Hh Hx) as (ty & Hty & Htx).
  unfold schema_arity. rewrite Hty. simpl. rewrite Htx. by rewrite any_type_t_domains.
Qed.
Lemma hirm_data_lookup h a name : hirm_holds h a -> hirm_data h !! name = any_data <$> hirm_lookup h name.
Proof.
  intros Hh. unfold hirm_data. rewrite map_lookup_imap. destruct (h_schema h !! name) as [ty|] eqn:E; [done|].
  simpl. destruct (hirm_lookup h name) as [x|] eqn:Ex; [|done].
  destruct (hirm_lookup_declared h a name x Hh Ex) as (ty & Hty & _). congruence.
Qed.
Lemma code_inj h a n n' rc : hirm_holds h a -> h_code h !! n = Some rc -> h_code h !! n' = Some rc -> n = n'.
Proof. intros Hh H1 H2. apply (hh_codes _ _ Hh) in H1, H2. congruence. Qed.

Lemma base_facts h a name ty b : hirm_holds h a -> h_schema h !! name = Some ty -> t_base ty = Some b ->
  b <> name /\ exists tb, h_schema h !! b = Some tb /\ length (t_domains tb) <= length (t_domains ty).
Proof.
  intros Hh Hty Hb. destruct (grounded_base (h_schema h) name ty b) as [Hg Hne]; [|done..|].
  { apply (hh_grounded _ _ Hh). eauto. }
  split; [done|]. apply grounded_declared in Hg as [tb Htb]. exists tb. split; [done|].
  by apply (proj2 (hh_lawful _ _ Hh name ty Hty) b).
Qed.

(** ** Filling an IRM *)
Lemma add_to_irm_spec ar h ir A name ty :
  irm_holds ar ir A -> t_lawful ty -> ar name = Some (length (t_domains ty)) ->
  (forall b, t_base ty = Some b -> exists k, ar b = Some k /\ k <= length (t_domains ty)) ->
  (forall ir', add_relation_to_irm h ir name ty = Ok ir' ->
     name ∉ dom (i_rels ir) /\ t_domains ty <> [] /\ grown ar name ty ∅ ir ir') /\
  (name ∉ dom (i_rels ir) -> t_domains ty <> [] -> (forall b, t_base ty = Some b -> is_Some (hirm_lookup h b)) ->
     exists ir', add_relation_to_irm h ir name ty = Ok ir').
Proof.
  intros Hh HL Har Hb. pose proof (frame_of_holds _ _ _ Hh) as Hf.
  assert (forall ir' W' d2r' b2n' x, name ∉ dom (i_rels ir) -> fresh_rel ty = Ok x ->
    ir' = Irm (<[name := ty]> (i_schema ir)) W' (<[name := x]> (i_rels ir)) d2r' b2n' ->
    (forall d, W' !! d = if decide (d ∈ t_domains ty) then Some (default dom_new (i_domains ir !! d)) else i_domains ir !! d) ->
    (forall d, d2r' !! d = if decide (d ∈ t_domains ty) then Some ({[name]} ∪ default ∅ (i_d2r ir !! d)) else i_d2r ir !! d) ->
    grown ar name ty ∅ ir ir') as Hgrown.
  { intros ir' W' d2r' b2n' x Hn Hfr -> HW HR. destruct (fresh_rel_spec _ _ Hfr) as (_ & Htx & Hdx). split; simpl.
    - eexists. by eapply (enter_holds ar ar).
    - done.
    - intros n Hne. by rewrite lookup_insert_ne.
    - exists x. by rewrite lookup_insert. }
  destruct ty as [ds obs D sp|ds obs E sp base]; cbn [add_relation_to_irm].
  - destruct (irm_add_spec ir name (TClean ds obs D sp) Hf) as [H1 H2]. cbn [irm_add_relation] in H1, H2. split.
    + intros ir' H. destruct (H2 ir' H) as (Hn & Hne & _ & W' & d2r' & b2n' & x & Hfr & Hir & HW & HR).
      split_and!; [done|done|]. by eapply Hgrown.
    + intros Hn Hne _. apply H1. split_and!; done.
  - destruct (irm_add_with_base_spec ir name ds obs E sp base Hf) as [H1 H2]. split.
    + intros ir' H. apply obind_Ok in H as (u & _ & H).
      destruct (H2 ir' H) as (Hn & Hne & W' & d2r' & b2n' & x & Hfr & Hir & HW & HR).
      split_and!; [done|done|]. by eapply Hgrown.
    + intros Hn Hne Hbase. destruct (Hbase base eq_refl) as [x Hx]. apply get_relation_Ok in Hx. rewrite Hx. cbn [obind].
      by apply H1.
Qed.

Lemma try_fill_spec ar h o ir A name ty data r :
  irm_holds ar ir A -> t_lawful ty -> ar name = Some (length (t_domains ty)) ->
  (forall b, t_base ty = Some b -> exists k, ar b = Some k /\ k <= length (t_domains ty)) ->
  lookup_arity ar (hirm_lookup h) -> orders_ok o ->
  (forall ir' r', try_fill h o name ty data ir r = Ok (ir', r') -> grown ar name ty data ir ir') /\
  (name ∉ dom (i_rels ir) -> t_domains ty <> [] -> (forall b, t_base ty = Some b -> is_Some (hirm_lookup h b)) ->
   (forall k v, data !! k = Some v -> length k = length (t_domains ty) /\ type_accepts (hirm_lookup h) ty k v) ->
     exists st, try_fill h o name ty data ir r = Ok st).
Proof.
  intros Hh HL Har Hb Hlk Ho. destruct (add_to_irm_spec ar h ir A name ty Hh HL Har Hb) as [H1 H2]. unfold try_fill. split.
  - intros ir' r' H. apply obind_Ok in H as (ir1 & Ha & H). destruct (H1 ir1 Ha) as (_ & _ & Hg).
    by apply (proj1 (refill_spec ar (hirm_lookup h) o name ty data ir1 ir r Hlk Ho Hg)) in H.
  - intros Hn Hne Hbase Hacc. destruct (H2 Hn Hne Hbase) as (ir1 & Ha). rewrite Ha. cbn [obind].
    destruct (H1 ir1 Ha) as (_ & _ & Hg). by apply (proj2 (refill_spec ar (hirm_lookup h) o name ty data ir1 ir r Hlk Ho Hg)).
Qed.

(** ** The state after a move *)
Definition irm_at h (tb : Z) : irm V := default irm_empty (h_irms h !! tb).

Definition settled h (name : string) ty (data : gmap items_t V) (choice : Z) (irms : gmap Z (irm V)) : Prop :=
  forall tb, match irms !! tb with
  | Some ir => (exists A, irm_holds (schema_arity (h_schema h)) ir A) /\
      (forall n, n <> name -> i_rels ir !! n = i_rels (irm_at h tb) !! n) /\
      (forall n, n <> name -> i_schema ir !! n = i_schema (irm_at h tb) !! n) /\
      (if decide (tb = choice) then i_schema ir !! name = Some ty /\ exists x, i_rels ir !! name = Some x /\ any_data x = data
       else i_schema ir !! name = None /\ exists n, is_Some (i_schema ir !! n))
  | None => tb <> choice /\ forall n, n <> name -> i_schema (irm_at h tb) !! n = None
  end.

Lemma holds_dom_irms h a : hirm_holds h a -> dom (h_irms h) = dom (crp_tables (h_crp h)).
Proof.
  intros Hh. apply set_eq. intros tb. rewrite !elem_of_dom, (hs_tables _ _ (hh_crp _ _ Hh)).
  pose proof (hh_irms _ _ Hh tb) as Hi. destruct (h_irms h !! tb) as [ir|].
  - destruct Hi as [Hne _]. rewrite decide_False by done. split; eauto.
  - rewrite decide_True by done. split; by intros [? ?].
Qed.
Lemma holds_assert_clusters h a : hirm_holds h a -> assert_clusters h = Ok tt.
Proof.
  intros Hh. pose proof (holds_dom_irms h a Hh) as Hd. unfold assert_clusters.
  rewrite bool_decide_eq_true_2 by by rewrite <- !size_dom, Hd. simpl. rewrite bool_decide_eq_true_2; [done|]. by rewrite Hd.
Qed.

Lemma settled_holds h a name ty x rc choice irms c :
  hirm_holds h a -> h_schema h !! name = Some ty -> h_code h !! name = Some rc -> hirm_lookup h name = Some x ->
  settled h name ty (any_data x) choice irms -> holds_seating c (<[rc := choice]> (delete rc a)) ->
  let h' := h_set_crp (h_set_irms h irms) c in
  hirm_holds h' (<[rc := choice]> (delete rc a)) /\ hirm_data h' = hirm_data h /\
  (forall n, table_of h' n = if decide (n = name) then Some choice else table_of h n).
Proof.
  intros Hh Hty Hrc Hx Hs Hc h'.
  destruct (member h a name ty Hh Hty) as (rc' & cur & irc & A & x' & Hrc' & Hcur & Htb & Hirc & HA & Hsn & Hrn & Htx & Hlx).
  rewrite Hrc in Hrc'. injection Hrc' as <-. rewrite Hx in Hlx. injection Hlx as <-.
  assert (forall n, table_of h' n = if decide (n = name) then Some choice else table_of h n) as Htab.
  { intros n. unfold table_of, h'. simpl. rewrite (hs_assign _ _ Hc), (hs_assign _ _ (hh_crp _ _ Hh)).
    destruct (decide (n = name)) as [->|Hne].
    - rewrite Hrc. simpl. by rewrite lookup_insert.
    - destruct (h_code h !! n) as [rn|] eqn:En; [|done]. simpl.
      rewrite lookup_insert_ne, lookup_delete_ne; [done| |]; intros <-; apply Hne; by eapply (code_inj h a). }
  assert (forall n ty', h_schema h !! n = Some ty' -> n <> name ->
    exists rn tb ir, h_code h !! n = Some rn /\ rn <> rc /\ a !! rn = Some tb /\ table_of h n = Some tb /\
      h_irms h !! tb = Some ir /\ i_schema ir !! n = Some ty') as Hmem.
  { intros n ty' Hn Hne. destruct (member h a n ty' Hh Hn) as (rn & tb & ir & A' & y & H1 & H2 & H3 & H4 & _ & H5 & _).
    exists rn, tb, ir. split_and!; try done. intros ->. apply Hne. by eapply (code_inj h a). }
  assert (hirm_holds h' (<[rc := choice]> (delete rc a))) as Hh'.
  { split; simpl; try apply Hh; try done.
    - intros r'. destruct (decide (r' = rc)) as [->|Hne].
      + rewrite lookup_insert. split; [|eauto]. intros _. exists name. by apply (hh_codes _ _ Hh).
      + rewrite lookup_insert_ne, lookup_delete_ne by done. apply (hh_seated _ _ Hh).
    - intros tb. specialize (Hs tb). destruct (irms !! tb) as [ir|].
      + destruct Hs as (HA' & Hr & Hsch & Hcase). split_and!.
        * destruct (decide (tb = choice)) as [->|Hne].
          { intros He. assert (rc ∈ customers_at (<[rc:=choice]> (delete rc a)) choice) as Hin
              by (apply elem_of_customers_at; apply lookup_insert). rewrite He in Hin. set_solver. }
          destruct Hcase as [Hnone [n [ty' Hn]]]. assert (n <> name) as Hnn by congruence.
          rewrite (Hsch n Hnn) in Hn. unfold irm_at in Hn. pose proof (hh_irms _ _ Hh tb) as Hi.
          destruct (h_irms h !! tb) as [ir0|]; simpl in Hn; [|by rewrite lookup_empty in Hn].
          destruct Hi as (_ & _ & Hm). apply Hm in Hn as [Hn Htn].
          destruct (Hmem n ty' Hn Hnn) as (rn & tb' & _ & _ & Hrne & Han & Htn' & _).
          rewrite Htn in Htn'. injection Htn' as <-.
          intros He. assert (rn ∈ customers_at (<[rc:=choice]> (delete rc a)) tb) as Hin.
          { apply elem_of_customers_at. by rewrite lookup_insert_ne, lookup_delete_ne. }
          rewrite He in Hin. set_solver.
        * done.
        * intros n ty'. rewrite Htab. destruct (decide (n = name)) as [->|Hnn].
          { destruct (decide (tb = choice)) as [->|Hne].
            - destruct Hcase as [-> _]. rewrite Hty. naive_solver.
            - destruct Hcase as [-> _]. naive_solver. }
          rewrite (Hsch n Hnn). unfold irm_at. pose proof (hh_irms _ _ Hh tb) as Hi.
          destruct (h_irms h !! tb) as [ir0|]; simpl.
          { destruct Hi as (_ & _ & Hm). apply Hm. }
          rewrite lookup_empty. split; [done|]. intros [Hn Htn].
          destruct (Hmem n ty' Hn Hnn) as (rn & tb' & _ & _ & Hrne & Han & Htn' & _).
          rewrite Htn in Htn'. injection Htn' as <-.
          assert (rn ∈ customers_at a tb) as Hin by by apply elem_of_customers_at. rewrite Hi in Hin. set_solver.
      + destruct Hs as [Hne Hnone]. apply set_eq. intros i. rewrite elem_of_customers_at. split; [|set_solver]. intros Hi.
        destruct (decide (i = rc)) as [->|Hir]; [rewrite lookup_insert in Hi; congruence|].
        rewrite lookup_insert_ne, lookup_delete_ne in Hi by done.
        assert (is_Some (h_rel h !! i)) as [n Hn] by (apply (hh_seated _ _ Hh); eauto).
        apply (hh_codes _ _ Hh) in Hn. assert (is_Some (h_schema h !! n)) as [ty' Hty'] by (apply (hh_schema _ _ Hh); eauto).
        assert (n <> name) as Hnn by congruence.
        destruct (Hmem n ty' Hty' Hnn) as (rn & tb' & ir0 & Hrn' & Hrne & Han & Htn' & Hir0 & Hsn0).
        assert (rn = i) as -> by congruence. assert (tb' = tb) as -> by congruence.
        specialize (Hnone n Hnn). unfold irm_at in Hnone. rewrite Hir0 in Hnone. simpl in Hnone. congruence. }
  split; [done|]. split; [|done].
  apply map_eq. intros n. rewrite (hirm_data_lookup h' _ n Hh'), (hirm_data_lookup h a n Hh).
  destruct (decide (n = name)) as [->|Hnn].
  - rewrite Hx. simpl. specialize (Hs choice). destruct (irms !! choice) as [ir|] eqn:Eir; [|by destruct Hs].
    destruct Hs as (_ & _ & _ & Hcase). rewrite decide_True in Hcase by done. destruct Hcase as [_ (y & Hy & Hdy)].
    assert (hirm_lookup h' name = Some y) as ->; [|simpl; by rewrite Hdy].
    apply hirm_lookup_iff. exists choice, ir. rewrite Htab, decide_True by done. done.
  - assert (hirm_lookup h' n = hirm_lookup h n) as ->; [|done].
    apply option_eq. intros y. rewrite !hirm_lookup_iff. setoid_rewrite Htab. rewrite decide_False by done. split.
    + intros (tb & ir & Ht & Hir & Hy). exists tb. simpl in Hir. specialize (Hs tb). rewrite Hir in Hs.
      destruct Hs as (_ & Hr & _). rewrite (Hr n Hnn) in Hy. unfold irm_at in Hy.
      destruct (h_irms h !! tb) as [ir0|]; simpl in Hy; [|by rewrite lookup_empty in Hy]. by exists ir0.
    + intros (tb & ir & Ht & Hir & Hy). exists tb. simpl. specialize (Hs tb). destruct (irms !! tb) as [ir'|].
      * destruct Hs as (_ & Hr & _). exists ir'. split_and!; try done. rewrite (Hr n Hnn). unfold irm_at. by rewrite Hir.
      * destruct Hs as [_ Hnone]. specialize (Hnone n Hnn). unfold irm_at in Hnone. rewrite Hir in Hnone. simpl in Hnone.
        pose proof (hh_irms _ _ Hh tb) as Hi. rewrite Hir in Hi. destruct Hi as (_ & [A' HA'] & _).
        destruct (irm_schema_lookup _ ir A' n y HA' Hy) as (ty' & Hty' & _). congruence.
Qed.

(** ** Base pointers *)
Lemma update_base_spec h a name : hirm_holds h a ->
  hirm_listed h -> is_Some (h_schema h !! name) -> update_base_relation h name = Ok tt.
Proof.
  intros Hh Hl [ty Hty]. unfold update_base_relation.
  destruct (h_b2n h !! name) as [ns|] eqn:En; [|done].
  assert (forall n, n ∈ ns -> is_Some (h_schema h !! n)) as Hns by (intros n; by apply (Hl name)).
  clear En. induction ns as [|n ns IH]; [done|]. cbn [foldM].
  destruct (Hns n) as [tn Htn]; [left|].
  destruct (member h a n tn Hh Htn) as (? & ? & ? & ? & y1 & _ & _ & _ & _ & _ & _ & _ & _ & Hy).
  destruct (member h a name ty Hh Hty) as (? & ? & ? & ? & y2 & _ & _ & _ & _ & _ & _ & _ & _ & Hx).
  apply get_relation_Ok in Hy, Hx. unfold update_base_step at 1. rewrite Hy. cbn [obind]. rewrite Hx. cbn [obind]. apply IH. intros n' Hn'. apply Hns. by right.
Qed.

(** The seating after a move. *)
Lemma move_crp h a rc cur choice : hirm_holds h a -> a !! rc = Some cur ->
  exists c1 c, crp_unincorporate (h_crp h) rc = Ok c1 /\ crp_incorporate c1 rc choice = Ok c /\
    holds_seating c (<[rc := choice]> (delete rc a)).
Proof.
  intros Hh Hcur. destruct (holds_unincorporate (h_crp h) a rc cur (hh_crp _ _ Hh) Hcur) as (c1 & H1 & Hc1 & _).
  destruct (holds_incorporate c1 (delete rc a) rc choice Hc1) as (c & H2 & Hc & _); [apply lookup_delete|].
  exists c1, c. done.
Qed.

(** ** Looking names up in the middle of a move *)
Lemma irms_arity ar h (irms : gmap Z (irm V)) :
  (forall tb ir, irms !! tb = Some ir -> exists A, irm_holds ar ir A) -> lookup_arity ar (hirm_lookup (h_set_irms h irms)).
Proof.
  intros H n x Hx. apply hirm_lookup_iff in Hx as (tb & ir & _ & Hir & Hx). destruct (H tb ir Hir) as [A HA]. by eapply ih_arity.
Qed.
Lemma irms_lookup h (irms : gmap Z (irm V)) n x :
  (forall tb ir, h_irms h !! tb = Some ir -> i_rels ir !! n = Some x -> exists ir', irms !! tb = Some ir' /\ i_rels ir' !! n = Some x) ->
  hirm_lookup h n = Some x -> hirm_lookup (h_set_irms h irms) n = Some x.
Proof.
  intros H Hx. apply hirm_lookup_iff in Hx as (tb & ir & Ht & Hir & Hx). apply hirm_lookup_iff.
  destruct (H tb ir Hir Hx) as (ir' & Hir' & Hx'). exists tb, ir'. done.
Qed.
Lemma closed_accepts h a lk name ty x k v :
  hirm_holds h a -> hirm_closed h -> h_schema h !! name = Some ty -> hirm_lookup h name = Some x -> any_data x !! k = Some v ->
  (forall b y, t_base ty = Some b -> hirm_lookup h b = Some y -> lk b = Some y) ->
  length k = length (t_domains ty) /\ type_accepts lk ty k v.
Proof.
  intros Hh Hc Hty Hx Hk Hlk.
  destruct (member h a name ty Hh Hty) as (rc & tb & ir & A & x' & _ & _ & _ & _ & HA & _ & Hrn & Htx & Hlx).
  rewrite Hx in Hlx. injection Hlx as <-. split.
  { rewrite Htx, any_type_t_domains. eapply any_holds_length; [by eapply ih_rels|eauto]. }
  assert (hirm_data h !! name = Some (any_data x)) as Hd by by rewrite (hirm_data_lookup h a name Hh), Hx.
  specialize (Hc name ty _ k v Hty Hd Hk). destruct ty as [ds obs D sp|ds obs E sp base]; simpl in *; [done|].
  destruct Hc as (tyb & m & bv & Htb & Hm & Hbv & Hacc).
  rewrite (hirm_data_lookup h a base Hh) in Hm. destruct (hirm_lookup h base) as [y|] eqn:Ey; [|done]. injection Hm as <-.
  exists y, bv. split_and!; [by apply Hlk| |done].
  destruct (hirm_lookup_declared h a base y Hh Ey) as (tyb' & Htb' & Htyb). rewrite Htb in Htb'. injection Htb' as <-.
  rewrite Htyb in Hbv. by rewrite any_type_t_domains in Hbv.
Qed.
(** What a move of one relation leaves behind. *)
Definition moved h a h' (name : string) (choice : Z) : Prop :=
  exists rc, h_code h !! name = Some rc /\ hirm_holds h' (<[rc := choice]> (delete rc a)) /\ hirm_data h' = hirm_data h /\
    h_schema h' = h_schema h /\ h_code h' = h_code h /\ h_rel h' = h_rel h /\ h_b2n h' = h_b2n h /\
    forall n, table_of h' n = if decide (n = name) then Some choice else table_of h n.

Lemma finish_move h a name ty x rc cur choice irms c1 c :
  hirm_holds h a -> h_schema h !! name = Some ty -> hirm_lookup h name = Some x ->
  h_code h !! name = Some rc -> a !! rc = Some cur ->
  settled h name ty (any_data x) choice irms ->
  crp_unincorporate (h_crp h) rc = Ok c1 -> crp_incorporate c1 rc choice = Ok c ->
  moved h a (h_set_crp (h_set_irms h irms) c) name choice.
Proof.
  intros Hh Hty Hx Hrc Hcur Hs H1 H2. destruct (move_crp h a rc cur choice Hh Hcur) as (c1' & c' & H1' & H2' & Hc).
  rewrite H1 in H1'. injection H1' as <-. rewrite H2 in H2'. injection H2' as <-.
  destruct (settled_holds h a name ty x rc choice irms c Hh Hty Hrc Hx Hs Hc) as (Hh' & Hd & Ht).
  exists rc. split_and!; done.
Qed.

(** ** set_cluster_assignment_gibbs *)
Lemma grown_settled_other ar name ty data ir ir' n : grown ar name ty data ir ir' -> n <> name ->
  i_rels ir' !! n = i_rels ir !! n /\ i_schema ir' !! n = i_schema ir !! n.
Proof. intros Hg Hn. split; [by apply (gr_other _ _ _ _ _ _ Hg)|]. rewrite (gr_schema _ _ _ _ _ _ Hg). by rewrite lookup_insert_ne. Qed.

(** The IRMs without the relation, as [set_cluster_assignment_gibbs] makes them before
    entering the relation again. *)
Lemma removed_irms h a o name ty cur ir ir1 x :
  hirm_holds h a -> orders_ok o -> h_schema h !! name = Some ty -> table_of h name = Some cur ->
  h_irms h !! cur = Some ir -> irm_remove_relation o ir name = Ok ir1 -> hirm_lookup h name = Some x ->
  (exists A, irm_holds (schema_arity (h_schema h)) ir1 A) /\
  i_rels ir1 = delete name (i_rels ir) /\ i_schema ir1 = delete name (i_schema ir).
Proof.
  intros Hh Ho Hty Hcur Hir H1 Hx. apply hirm_lookup_iff in Hx as (tb & ir' & Ht & Hir' & Hx).
  assert (tb = cur) as -> by congruence. assert (ir' = ir) as -> by congruence.
  pose proof (hh_irms _ _ Hh cur) as Hi. rewrite Hir in Hi. destruct Hi as (_ & [A HA] & _).
  destruct (irm_remove_spec _ o ir A name x HA Ho Hx) as (ir2 & A' & H2 & HA' & Hr & Hs & _).
  rewrite H1 in H2. injection H2 as <-. eauto.
Qed.

Lemma set_cluster_spec h a o name table r :
  hirm_holds h a -> orders_ok o ->
  (forall h' r', hirm_set_cluster o h name table r = Ok (h', r') -> moved h a h' name table) /\
  (is_Some (h_schema h !! name) -> hirm_closed h -> hirm_listed h -> exists st, hirm_set_cluster o h name table r = Ok st).
Proof.
  intros Hh Ho. unfold hirm_set_cluster.
  destruct (h_schema h !! name) as [ty|] eqn:Hty.
  2:{ split; [|by intros [? ?]]. intros h' r' H. exfalso. apply obind_Ok in H as (u & _ & H).
      apply obind_Ok in H as (rc & Hrc%at_Ok & _). assert (is_Some (h_schema h !! name)) as [? ?] by (apply (hh_schema _ _ Hh); eauto).
      congruence. }
  destruct (member h a name ty Hh Hty) as (rc & cur & ir & A & x & Hrc & Hcur & Htab & Hir & HA & Hsn & Hrn & Htx & Hx).
  pose proof (holds_assert_clusters h a Hh) as Hac. unfold assert_clusters in Hac.
  apply obind_Ok in Hac as ([] & Hac & _). rewrite Hac. cbn [obind]. rewrite Hrc. cbn [at_ obind].
  rewrite (hs_assign _ _ (hh_crp _ _ Hh)), Hcur. cbn [at_ obind].
  rewrite (proj2 (get_relation_Ok h name x) Hx). cbn [at_ obind].
  assert (relation_to_irm h name = Ok ir) as ->.
  { unfold relation_to_irm. rewrite (proj2 (relation_to_table_Ok h name cur) Htab). cbn [obind]. by rewrite Hir. }
  cbn [obind].
  destruct (irm_remove_spec _ o ir A name x HA Ho Hrn) as (ir1 & A1 & H1 & HA1 & Hr1 & Hs1 & _).
  rewrite H1. cbn [obind].
  set (irms1 := if bool_decide (i_rels ir1 = ∅) then delete cur (h_irms h) else <[cur := ir1]> (h_irms h)).
  set (irms2 := match irms1 !! table with Some _ => irms1 | None => <[table := irm_empty]> irms1 end).
  set (ar := schema_arity (h_schema h)) in *.
  assert (forall tb ir0, irms2 !! tb = Some ir0 -> (exists A0, irm_holds ar ir0 A0) /\
     i_rels ir0 !! name = None /\ i_schema ir0 !! name = None /\
     (forall n, n <> name -> i_rels ir0 !! n = i_rels (irm_at h tb) !! n) /\
     (forall n, n <> name -> i_schema ir0 !! n = i_schema (irm_at h tb) !! n) /\
     (tb <> table -> exists n, is_Some (i_schema ir0 !! n))) as Hirms2.
  { assert (forall tb ir0, irms1 !! tb = Some ir0 -> (exists A0, irm_holds ar ir0 A0) /\
     i_rels ir0 !! name = None /\ i_schema ir0 !! name = None /\
     (forall n, n <> name -> i_rels ir0 !! n = i_rels (irm_at h tb) !! n) /\
     (forall n, n <> name -> i_schema ir0 !! n = i_schema (irm_at h tb) !! n) /\
     (exists n, is_Some (i_schema ir0 !! n))) as Hirms1.
    { intros tb ir0 H0. assert (tb = cur -> ir0 = ir1 /\ i_rels ir1 <> ∅) as Hc.
      { intros ->. unfold irms1 in H0. case_bool_decide; [by rewrite lookup_delete in H0|]. rewrite lookup_insert in H0. by injection H0 as <-. }
      destruct (decide (tb = cur)) as [->|Hne].
      - destruct (Hc eq_refl) as [-> Hne]. split_and!.
        + eauto.
        + rewrite Hr1. apply lookup_delete.
        + rewrite Hs1. apply lookup_delete.
        + intros n Hn. rewrite Hr1, lookup_delete_ne by done. unfold irm_at. by rewrite Hir.
        + intros n Hn. rewrite Hs1, lookup_delete_ne by done. unfold irm_at. by rewrite Hir.
        + apply map_choose in Hne as (n & y & Hy). exists n.
          destruct (irm_schema_lookup _ ir1 A1 n y HA1 Hy) as (tyn & Htyn & _). eauto.
      - assert (h_irms h !! tb = Some ir0) as H0'.
        { unfold irms1 in H0. case_bool_decide; [by rewrite lookup_delete_ne in H0|by rewrite lookup_insert_ne in H0]. }
        pose proof (hh_irms _ _ Hh tb) as Hi. rewrite H0' in Hi. destruct Hi as (Hcu & [A0 HA0] & Hm).
        assert (i_schema ir0 !! name = None) as Hsn0.
        { destruct (i_schema ir0 !! name) as [ty0|] eqn:E; [|done]. apply Hm in E as [_ E]. congruence. }
        split_and!.
        + eauto.
        + destruct (i_rels ir0 !! name) as [y|] eqn:E; [|done].
          destruct (irm_schema_lookup _ ir0 A0 name y HA0 E) as (tyn & Htyn & _). congruence.
        + done.
        + intros n Hn. unfold irm_at. by rewrite H0'.
        + intros n Hn. unfold irm_at. by rewrite H0'.
        + apply set_choose_L in Hcu as [i Hi]. apply elem_of_customers_at in Hi.
          assert (is_Some (h_rel h !! i)) as [n Hn] by (apply (hh_seated _ _ Hh); eauto).
          apply (hh_codes _ _ Hh) in Hn. assert (is_Some (h_schema h !! n)) as [tyn Htyn] by (apply (hh_schema _ _ Hh); eauto).
          exists n, tyn. apply Hm. split; [done|]. unfold table_of. rewrite Hn. simpl. by rewrite (hs_assign _ _ (hh_crp _ _ Hh)). }
    intros tb ir0 H0. unfold irms2 in H0. destruct (irms1 !! table) as [it|] eqn:Et.
    { destruct (Hirms1 tb ir0 H0) as (? & ? & ? & ? & ? & ?). split_and!; done. }
    destruct (decide (tb = table)) as [->|Hne].
    - rewrite lookup_insert in H0. injection H0 as <-. split_and!; simpl; try by rewrite lookup_empty.
      + exists ∅. apply irm_holds_empty.
      + intros n Hn. rewrite lookup_empty. symmetry. unfold irms1 in Et. case_bool_decide as He.
        * destruct (decide (table = cur)) as [->|Hnc].
          { unfold irm_at. rewrite Hir. simpl. rewrite Hr1 in He.
            apply (f_equal (fun m : gmap string (any_rel V) => m !! n)) in He. by rewrite lookup_delete_ne, lookup_empty in He. }
          rewrite lookup_delete_ne in Et by done. unfold irm_at. rewrite Et. simpl. apply lookup_empty.
        * destruct (decide (table = cur)) as [->|Hnc]; [by rewrite lookup_insert in Et|].
          rewrite lookup_insert_ne in Et by done. unfold irm_at. rewrite Et. simpl. apply lookup_empty.
      + intros n Hn. rewrite lookup_empty. symmetry. unfold irms1 in Et. case_bool_decide as He.
        * destruct (decide (table = cur)) as [->|Hnc].
          { unfold irm_at. rewrite Hir. simpl. rewrite Hr1 in He.
            apply (f_equal (fun m : gmap string (any_rel V) => m !! n)) in He. rewrite lookup_delete_ne, lookup_empty in He by done.
            destruct (i_schema ir !! n) as [tyn|] eqn:E; [|done].
            destruct (irm_rel_lookup _ ir A n tyn HA E) as (y & Hy & _). congruence. }
          rewrite lookup_delete_ne in Et by done. unfold irm_at. rewrite Et. simpl. apply lookup_empty.
        * destruct (decide (table = cur)) as [->|Hnc]; [by rewrite lookup_insert in Et|].
          rewrite lookup_insert_ne in Et by done. unfold irm_at. rewrite Et. simpl. apply lookup_empty.
      + done.
    - rewrite lookup_insert_ne in H0 by done. destruct (Hirms1 tb ir0 H0) as (? & ? & ? & ? & ? & ?). split_and!; done. }
  assert (is_Some (irms2 !! table)) as [irt Hirt].
  { unfold irms2. destruct (irms1 !! table) as [it|] eqn:Et; [eauto|]. rewrite lookup_insert. eauto. }
  rewrite Hirt. cbn [at_ obind].
  assert (forall tb, irms2 !! tb = None -> tb <> table -> forall n, n <> name -> i_schema (irm_at h tb) !! n = None) as HirmsN.
  { intros tb E0 Hne n Hn. unfold irms2 in E0.
        assert (irms1 !! tb = None) as E1 by (destruct (irms1 !! table); [done|by rewrite lookup_insert_ne in E0]).
        unfold irms1 in E1. case_bool_decide as He.
        * destruct (decide (tb = cur)) as [->|Hnc].
          { unfold irm_at. rewrite Hir. simpl. rewrite Hr1 in He.
            apply (f_equal (fun m : gmap string (any_rel V) => m !! n)) in He. rewrite lookup_delete_ne, lookup_empty in He by done.
            destruct (i_schema ir !! n) as [tyn|] eqn:E; [|done].
            destruct (irm_rel_lookup _ ir A n tyn HA E) as (y & Hy & _). congruence. }
          rewrite lookup_delete_ne in E1 by done. unfold irm_at. rewrite E1. simpl. apply lookup_empty.
        * destruct (decide (tb = cur)) as [->|Hnc]; [by rewrite lookup_insert in E1|].
          rewrite lookup_insert_ne in E1 by done. unfold irm_at. rewrite E1. simpl. apply lookup_empty. }
  assert (forall b y, b <> name -> hirm_lookup h b = Some y -> hirm_lookup (h_set_irms h irms2) b = Some y) as Hlk.
  { intros b y Hb Hy. eapply irms_lookup; [|done]. intros tb ir0 Hir0 Hy0.
    destruct (irms2 !! tb) as [ir2|] eqn:E2.
    - exists ir2. split; [done|]. destruct (Hirms2 tb ir2 E2) as (_ & _ & _ & Hr2 & _). rewrite (Hr2 b Hb). unfold irm_at. by rewrite Hir0.
    - exfalso. assert (tb <> table) as Hne by (intros ->; congruence). pose proof (HirmsN tb E2 Hne b Hb) as Hnone.
      unfold irm_at in Hnone. rewrite Hir0 in Hnone. simpl in Hnone.
      pose proof (hh_irms _ _ Hh tb) as Hi. rewrite Hir0 in Hi. destruct Hi as (_ & [A0 HA0] & _).
      destruct (irm_schema_lookup _ ir0 A0 b y HA0 Hy0) as (tyn & Htyn & _). congruence. }
  destruct (Hirms2 table irt Hirt) as ([At HAt] & Hrt & Hst & Hort & Host & _).
  destruct (try_fill_spec ar (h_set_irms h irms2) o irt At name ty (any_data x) r HAt) as [Hf1 Hf2].
  { apply (hh_lawful _ _ Hh name ty Hty). }
  { unfold ar, schema_arity. by rewrite Hty. }
  { intros b Hb. destruct (base_facts h a name ty b Hh Hty Hb) as (_ & tyb & Htb & Hle). exists (length (t_domains tyb)).
    split; [|done]. unfold ar, schema_arity. by rewrite Htb. }
  { apply irms_arity. intros tb ir0 H0. by apply (Hirms2 tb ir0 H0). }
  { done. }
  destruct (move_crp h a rc cur table Hh Hcur) as (c1 & c & Hc1 & Hc2 & Hc).
  assert (forall ir', grown ar name ty (any_data x) irt ir' -> settled h name ty (any_data x) table (<[table := ir']> irms2)) as Hset.
  { intros ir' Hg tb. destruct (decide (tb = table)) as [->|Hne].
    - rewrite lookup_insert. split_and!.
      + apply Hg.
      + intros n Hn. rewrite <- (Hort n Hn). by apply (grown_settled_other _ _ _ _ _ _ n Hg).
      + intros n Hn. rewrite <- (Host n Hn). by apply (grown_settled_other _ _ _ _ _ _ n Hg).
      + rewrite (gr_schema _ _ _ _ _ _ Hg). apply lookup_insert.
      + destruct (gr_rel _ _ _ _ _ _ Hg) as (y & ? & ? & _). eauto.
    - rewrite lookup_insert_ne by done. destruct (irms2 !! tb) as [ir0|] eqn:E0.
      + destruct (Hirms2 tb ir0 E0) as (? & ? & ? & ? & ? & ?). split_and!; auto.
      + split; [done|]. by apply HirmsN. }
  assert (forall ir', grown ar name ty (any_data x) irt ir' ->
    moved h a (h_set_crp (h_set_irms (h_set_irms h irms2) (<[table := ir']> irms2)) c) name table) as Hmoved.
  { intros ir' Hg. apply (finish_move h a name ty x rc cur table (<[table := ir']> irms2) c1 c); auto. }
  split.
  - intros h' r' H. apply obind_Ok in H as ([ir' r1] & Hf & H). specialize (Hf1 _ _ Hf).
    simpl in H. rewrite Hc1 in H. cbn [obind] in H. rewrite Hc2 in H. cbn [obind] in H.
    apply obind_Ok in H as (u & _ & H). apply obind_Ok in H as (u' & _ & [= <- <-]). by apply Hmoved.
  - intros _ Hclosed Hlisted. destruct Hf2 as ([ir' r1] & Hf).
    { by apply not_elem_of_dom. }
    { by apply (hh_domains _ _ Hh name). }
    { intros b Hb. destruct (base_facts h a name ty b Hh Hty Hb) as (Hbn & tyb & Htb & Hle).
      destruct (member h a b tyb Hh Htb) as (? & ? & ? & ? & y & _ & _ & _ & _ & _ & _ & _ & _ & Hy).
      exists y. by apply Hlk. }
    { intros k v Hk. eapply closed_accepts; try done. intros b y Hb Hy. apply Hlk; [|done].
      by destruct (base_facts h a name ty b Hh Hty Hb) as [? _]. }
    rewrite Hf. cbn [obind]. specialize (Hf1 _ _ Hf). destruct (Hmoved ir' Hf1) as (rc' & _ & Hh' & _).
    simpl. rewrite Hc1. cbn [obind]. rewrite Hc2. cbn [obind].
    rewrite (update_base_spec _ _ name Hh' Hlisted) by (simpl; eauto). cbn [obind].
    rewrite (holds_assert_clusters _ _ Hh'). cbn [obind]. eauto.
Qed.
End Move.
