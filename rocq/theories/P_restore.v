(** Building a model from files: the relations in their clusters and the entities in theirs. *)
From Coq Require Import String Ascii.
From stdpp Require Import gmap sorting strings list.
From Coq Require Import ZArith Reals Lia.
From Verif Require Import M_base M_dist M_crp M_domain M_relation M_noisy M_irm M_hirm M_text M_io M_clusters M_restore
  S_crp S_crp_state S_relation S_irm S_hirm S_clusters P_base P_crp P_domain P_relation P_any P_irm P_irm_schema P_irm_history P_hirm P_hirm_move P_hirm_history P_hirm_trans P_hirm_ctor
  P_clusters P_clusters_hirm S_restore.
Local Open Scope nat_scope.

Section Restore.
Context {V : Type}.
Implicit Types (h : hirm V) (ir : irm V) (schema : gmap string (t_rel V)).

(** ** Domains without entities *)
Definition vacant ir : Prop := forall d dm, i_domains ir !! d = Some dm -> domain_holds dm ∅.
Definition all_vacant h : Prop := forall t ir, h_irms h !! t = Some ir -> vacant ir.

Lemma vacant_empty : vacant irm_empty.
Proof. intros d dm H. by cbn in H; rewrite lookup_empty in H. Qed.
Lemma add_domains_vacant ds name : forall ir ir', vacant ir -> add_domains ir name ds = Ok ir' -> vacant ir'.
Proof.
  unfold add_domains. induction ds as [|d ds IH]; intros ir ir' Hv H; cbn [foldM] in H; [by injection H as <-|].
  apply obind_Ok in H as (ir1 & H1 & H). apply (IH ir1 ir'); [|done]. apply obind_Ok in H1 as (ir2 & H2 & H1).
  apply obind_Ok in H1 as (s & _ & H1). apply obind_Ok in H1 as (dm & _ & [= <-]). unfold vacant. cbn [i_domains].
  case_bool_decide; [by injection H2 as <-|]. apply obind_Ok in H2 as (u & _ & [= <-]). cbn [i_domains].
  intros d' dm' [[<- <-]|[_ ?]]%lookup_insert_Some; [apply domain_holds_new|by eapply Hv].
Qed.
Lemma add_to_irm_vacant h ir name t ir' : vacant ir -> add_relation_to_irm h ir name t = Ok ir' -> vacant ir'.
Proof.
  intros Hv H. destruct t as [ds obs D sp|ds obs E sp base]; cbn [add_relation_to_irm] in H.
  - unfold irm_add_clean in H. apply obind_Ok in H as (u & _ & H). apply obind_Ok in H as (ir1 & H1 & H).
    apply obind_Ok in H as (rel & _ & [= <-]). exact (add_domains_vacant _ _ _ _ Hv H1).
  - apply obind_Ok in H as (u & _ & H). unfold irm_add_with_base in H. apply obind_Ok in H as (u' & _ & H). apply obind_Ok in H as (ir1 & H1 & H).
    apply obind_Ok in H as (rel & _ & [= <-]). exact (add_domains_vacant _ _ _ _ Hv H1).
Qed.
Lemma remove_vacant o ir name ir' : vacant ir -> irm_remove_relation o ir name = Ok ir' -> vacant ir'.
Proof.
  intros Hv H. unfold irm_remove_relation in H. apply obind_Ok in H as (a & _ & H). apply obind_Ok in H as (ir1 & H & [= <-]).
  unfold vacant. cbn [i_domains]. revert ir Hv H. generalize (o_names o (list_to_set (any_doms a))). intros l.
  induction l as [|d l IH]; intros ir Hv H; cbn [foldM] in H; [by injection H as <-|]. apply obind_Ok in H as (ir2 & H2 & H).
  apply (IH ir2); [|done]. apply obind_Ok in H2 as (s & _ & H2). case_bool_decide.
  - apply obind_Ok in H2 as (dm & _ & [= <-]). intros d' dm' Hdm. cbn [i_domains] in Hdm. apply lookup_delete_Some in Hdm as [_ ?]. by eapply Hv.
  - injection H2 as <-. exact Hv.
Qed.
Lemma try_fill_vacant h o name t ir r ir' r' : orders_ok o -> vacant ir -> try_fill h o name t ∅ ir r = Ok (ir', r') -> vacant ir'.
Proof.
  intros (Ho & _) Hv H. unfold try_fill in H. apply obind_Ok in H as (ir1 & H1 & H). unfold refill in H.
  rewrite dom_empty_L in H. pose proof (Ho ∅) as Hp. rewrite elements_empty in Hp. apply Permutation_nil_r in Hp. rewrite Hp in H.
  injection H as <- <-. by eapply add_to_irm_vacant.
Qed.

(** ** Moving a relation without observations *)
Lemma set_cluster_irms h a o name table r h' r' : hirm_holds h a -> orders_ok o -> hirm_data h !! name = Some ∅ ->
  hirm_set_cluster o h name table r = Ok (h', r') -> exists cur, table_of h name = Some cur /\
  (forall t, t <> cur -> t <> table -> h_irms h' !! t = h_irms h !! t) /\
  ((forall t ir, t = cur \/ t = table -> h_irms h !! t = Some ir -> vacant ir) ->
   forall t ir, t = cur \/ t = table -> h_irms h' !! t = Some ir -> vacant ir).
Proof.
  intros Hh Ho Hd H. unfold hirm_set_cluster in H. apply obind_Ok in H as (u & _ & H). apply obind_Ok in H as (rc & Hrc%at_Ok & H).
  apply obind_Ok in H as (cur & Hcur%at_Ok & H). apply obind_Ok in H as (x & Hx & H). apply obind_Ok in H as (t & _ & H).
  apply obind_Ok in H as (ir & Hir & H). apply obind_Ok in H as (ir1 & Hir1 & H). cbv zeta in H.
  assert (table_of h name = Some cur) as Htab by (unfold table_of; rewrite Hrc; exact Hcur).
  assert (h_irms h !! cur = Some ir) as Hirc.
  { unfold relation_to_irm in Hir. rewrite (proj2 (relation_to_table_Ok h name cur) Htab) in Hir. cbn [obind] in Hir. by apply at_Ok in Hir. }
  apply get_relation_Ok in Hx. rewrite (hirm_data_lookup h a name Hh), Hx in Hd. injection Hd as Hd. rewrite Hd in H.
  set (irms1 := if bool_decide (i_rels ir1 = ∅) then delete cur (h_irms h) else <[cur := ir1]> (h_irms h)) in *.
  set (irms2 := match irms1 !! table with Some _ => irms1 | None => <[table := irm_empty]> irms1 end) in *.
  apply obind_Ok in H as (ir2 & Hir2%at_Ok & H). apply obind_Ok in H as ([ir3 r3] & Hir3 & H). apply obind_Ok in H as (c1 & _ & H).
  apply obind_Ok in H as (c2 & _ & H). apply obind_Ok in H as (u1 & _ & H). apply obind_Ok in H as (u2 & _ & [= <- <-]).
  cbn [h_set_crp h_set_irms h_irms]. exists cur. split; [done|].
  assert (forall t, t <> cur -> irms1 !! t = h_irms h !! t) as H1.
  { intros t' Hne. unfold irms1. case_bool_decide; [by rewrite lookup_delete_ne|by rewrite lookup_insert_ne]. }
  assert (forall t, t <> table -> irms2 !! t = irms1 !! t) as H2.
  { intros t' Hne. unfold irms2. destruct (irms1 !! table); [done|by rewrite lookup_insert_ne]. }
  split.
  - intros t' Hc Ht. rewrite lookup_insert_ne by done. by rewrite H2, H1.
  - intros Hv. assert (vacant ir1) as Hv1 by (eapply remove_vacant; [|exact Hir1]; eapply (Hv cur); eauto).
    assert (forall t ir, t = cur \/ t = table -> irms1 !! t = Some ir -> vacant ir) as Hv1'.
    { intros t' ir' Ht' E. destruct (decide (t' = cur)) as [->|Hne]; [|rewrite H1 in E by done; by eapply Hv].
      unfold irms1 in E. case_bool_decide; [by rewrite lookup_delete in E|]. rewrite lookup_insert in E. by injection E as <-. }
    assert (vacant ir2) as Hv2.
    { unfold irms2 in Hir2. destruct (irms1 !! table) as [ir'|] eqn:E; [rewrite E in Hir2; injection Hir2 as <-; eapply Hv1'; eauto|].
      rewrite lookup_insert in Hir2. injection Hir2 as <-. apply vacant_empty. }
    intros t' ir' Ht' [[<- <-]|[Hne E]]%lookup_insert_Some; [by eapply try_fill_vacant|]. rewrite H2 in E by done. by eapply Hv1'.
Qed.
Lemma hirm_add_vacant h name t r h' r' : all_vacant h -> hirm_add_relation h name t r = Ok (h', r') -> all_vacant h'.
Proof.
  intros Hv H. unfold hirm_add_relation in H. apply obind_Ok in H as (u & _ & H). cbv zeta in H. apply obind_Ok in H as ([table r1] & _ & H).
  apply obind_Ok in H as (c & _ & H). apply obind_Ok in H as (u1 & _ & H). apply obind_Ok in H as (ir & Hir%at_Ok & H).
  apply obind_Ok in H as (ir' & Hir' & H). apply obind_Ok in H as (u2 & _ & H). apply obind_Ok in H as (u3 & _ & [= <- <-]).
  assert (forall tb ir, (match h_irms h !! table with Some _ => h_irms h | None => <[table := irm_empty]> (h_irms h) end) !! tb = Some ir -> vacant ir) as Hv1.
  { intros tb ir1. destruct (h_irms h !! table); [by apply Hv|]. intros [[<- <-]|[_ ?]]%lookup_insert_Some; [apply vacant_empty|by eapply Hv]. }
  intros tb ir1. cbn [h_irms]. intros [[<- <-]|[_ ?]]%lookup_insert_Some; [|by eapply Hv1]. eapply add_to_irm_vacant; [|exact Hir']. by eapply Hv1.
Qed.

(** ** Declaring the relations *)
Record declared schema h : Prop := {
  dc_built : built schema h;
  dc_vacant : all_vacant h;
  dc_tables : forall n, table_of h n = if decide (is_Some (h_schema h !! n)) then Some (-1)%Z else None;
}.
Lemma undeclared_table h a n : hirm_holds h a -> h_schema h !! n = None -> table_of h n = None.
Proof.
  intros Hh Hn. unfold table_of. destruct (h_code h !! n) as [rc|] eqn:E; [|done]. exfalso.
  assert (is_Some (h_schema h !! n)) as [? ?] by (apply (hh_schema _ _ Hh); eauto). congruence.
Qed.
Lemma declared_empty schema : declared schema hirm_empty.
Proof.
  split; [apply built_empty| |].
  - intros t ir H. by cbn in H; rewrite lookup_empty in H.
  - intros n. rewrite decide_False; [done|]. cbn. rewrite lookup_empty. by intros [? ?].
Qed.
Lemma moved_built schema h a h' name t : built schema h -> hirm_holds h a -> moved h a h' name t -> built schema h'.
Proof.
  intros (_ & Hs & Hl & Hd) Hh (rc & _ & Hh' & Hd' & Hs' & _ & _ & Hb' & _). split_and!; [eauto|by rewrite Hs'| |by rewrite Hd'].
  intros b n. by rewrite Hb', Hs'.
Qed.
Lemma declare_spec o schema h name r : orders_ok o -> schema_lawful schema -> declared schema h ->
  (forall h' r', declare_relation o schema (h, r) name = Ok (h', r') -> declared schema h' /\ exists ty, schema !! name = Some ty /\ h_schema h' = <[name := ty]> (h_schema h)) /\
  (forall ty, schema !! name = Some ty -> h_schema h !! name = None -> t_domains ty <> [] -> (forall b, t_base ty = Some b -> is_Some (h_schema h !! b)) ->
    exists st, declare_relation o schema (h, r) name = Ok st).
Proof.
  intros Ho HL [Hb Hv Ht]. unfold declare_relation. split.
  - intros h' r' H. apply obind_Ok in H as (ty & Hty%at_Ok & H). apply obind_Ok in H as ([h1 r1] & H1 & H). apply obind_Ok in H as (u & _ & H).
    destruct (proj1 (built_add schema h name ty r HL Hb Hty) _ _ H1) as (Hb1 & Hs1 & Hn). pose proof (hirm_add_vacant _ _ _ _ _ _ Hv H1) as Hv1.
    pose proof Hb as ([a Hh] & _). pose proof Hb1 as ([a1 Hh1] & _ & _ & Hd1).
    destruct (HL name ty Hty) as [HLt Hbd]. destruct (hirm_add_spec h a name ty r Hh HLt) as [Hadd _].
    { intros b tb Htb Hsb. eapply Hbd; [done|]. destruct Hb as (_ & Hsub & _). by eapply lookup_weaken. }
    destruct (Hadd h1 r1 H1) as (_ & tb & _ & _ & _ & _ & Hto & Hd).
    pose proof (proj1 (set_cluster_spec h1 a1 o name (-1) r1 Hh1 Ho) _ _ H) as Hm. pose proof (moved_built schema h1 a1 h' name _ Hb1 Hh1 Hm) as Hb'.
    destruct Hm as (rc & _ & Hh' & _ & Hs' & _ & _ & _ & Ht'). split; [|exists ty; by rewrite Hs', Hs1].
    split; [done| |].
    + destruct (set_cluster_irms h1 a1 o name (-1) r1 h' r' Hh1 Ho) as (cur & _ & Hoth & Hvac); [by rewrite Hd, lookup_insert|done|].
      intros t ir E. destruct (decide (t = cur \/ t = (-1)%Z)) as [Hin|Hout].
      * eapply Hvac; [|exact Hin|exact E]. intros t1 ir1 _. apply Hv1.
      * rewrite Hoth in E by tauto. by eapply Hv1.
    + intros n. rewrite Ht', Hs', Hs1. destruct (decide (n = name)) as [->|Hne].
      * rewrite decide_True; [done|]. rewrite lookup_insert. eauto.
      * rewrite Hto, Ht by done. by rewrite lookup_insert_ne.
  - intros ty Hty Hn Hne Hbase. rewrite Hty. cbn [at_ obind]. destruct (proj2 (built_add schema h name ty r HL Hb Hty) Hn Hne Hbase) as ([h1 r1] & H1).
    rewrite H1. cbn [obind]. destruct (proj1 (built_add schema h name ty r HL Hb Hty) _ _ H1) as (Hb1 & Hs1 & _). pose proof Hb1 as ([a1 Hh1] & _ & Hl1 & _).
    pose proof (holds_assert_clusters h1 a1 Hh1) as Hac. unfold assert_clusters in Hac. apply obind_Ok in Hac as ([] & Hac & _).
    unfold assert_sizes. rewrite Hac. cbn [obind].
    apply (proj2 (set_cluster_spec h1 a1 o name (-1) r1 Hh1 Ho)); [rewrite Hs1, lookup_insert; eauto|by eapply built_closed|by apply listed_exact_listed].
Qed.
Lemma declare_loop o schema l : orders_ok o -> schema_lawful schema -> forall h r h' r', declared schema h ->
  foldM (declare_relation o schema) (h, r) l = Ok (h', r') -> declared schema h' /\
  forall n, is_Some (h_schema h' !! n) <-> is_Some (h_schema h !! n) \/ n ∈ l.
Proof.
  intros Ho HL. induction l as [|name l IH]; intros h r h' r' Hd H; cbn [foldM] in H.
  - injection H as <- <-. split; [done|]. intros n. rewrite elem_of_nil. tauto.
  - apply obind_Ok in H as ([h1 r1] & H1 & H). destruct (proj1 (declare_spec o schema h name r Ho HL Hd) _ _ H1) as (Hd1 & ty & Hty & Hs).
    destruct (IH h1 r1 h' r' Hd1 H) as [Hd' Hiff]. split; [done|]. intros n. rewrite Hiff, Hs, elem_of_cons. destruct (decide (n = name)) as [->|Hne].
    + rewrite lookup_insert. split; [|by left; eauto]. tauto.
    + rewrite lookup_insert_ne by done. tauto.
Qed.
Lemma declare_loop_total o schema l : orders_ok o -> schema_lawful schema -> (forall n t, schema !! n = Some t -> t_domains t <> []) ->
  forall h r, declared schema h -> NoDup l -> (forall n, n ∈ l -> is_Some (schema !! n) /\ h_schema h !! n = None) ->
  (forall l1 n l2 t b, l = l1 ++ n :: l2 -> schema !! n = Some t -> t_base t = Some b -> is_Some (h_schema h !! b) \/ b ∈ l1) ->
  exists st, foldM (declare_relation o schema) (h, r) l = Ok st.
Proof.
  intros Ho HL Hne. induction l as [|name l IH]; intros h r Hd Hnd Hl Hb; cbn [foldM]; [eauto|].
  destruct (Hl name) as [[ty Hty] Hn]; [by left|]. destruct (declare_spec o schema h name r Ho HL Hd) as [H1 H2].
  destruct (H2 ty Hty Hn) as ([h1 r1] & E); [by eapply Hne| |].
  { intros b Hbt. destruct (Hb [] name l ty b) as [?|?%elem_of_nil]; done. }
  rewrite E. cbn [obind]. destruct (H1 h1 r1 E) as (Hd1 & ty' & Hty' & Hs). apply NoDup_cons in Hnd as [Hnin Hnd].
  apply IH; [done|done| |].
  - intros n Hin. destruct (Hl n) as [? ?]; [by right|]. split; [done|]. rewrite Hs, lookup_insert_ne; [done|]. intros ->. done.
  - intros l1 n l2 t b -> Ht Hbt. destruct (Hb (name :: l1) n l2 t b) as [H|H]; [done..| |].
    + left. rewrite Hs. destruct (decide (b = name)) as [->|]; [rewrite lookup_insert; eauto|by rewrite lookup_insert_ne].
    + apply elem_of_cons in H as [->|H]; [left; rewrite Hs, lookup_insert; eauto|by right].
Qed.
End Restore.

(** ** The same clusters under other numbers *)
Lemma named_fwd fwd rev d i x : decodes fwd rev -> named rev d i x <-> exists m, fwd !! d = Some m /\ m !! x = Some i.
Proof. intros H. symmetry. apply H. Qed.
Lemma named_inj fwd rev d i j x : decodes fwd rev -> named rev d i x -> named rev d j x -> i = j.
Proof. intros H (m & Hm & Hi)%(named_fwd fwd) (m' & Hm' & Hj)%(named_fwd fwd); [|done..]. congruence. Qed.
Lemma named_fun rev d i x y : named rev d i x -> named rev d i y -> x = y.
Proof. intros (m & Hm & Hi) (m' & Hm' & Hj). congruence. Qed.

Definition rename (rev : gmap string (gmap Z string)) (fwd : gmap string (gmap string Z)) (d : string) (it : Z * Z) : option (Z * Z) :=
  match rev !! d with None => None | Some m => match m !! it.1 with None => None | Some x =>
  match fwd !! d with None => None | Some f => match f !! x with None => None | Some i' => Some (i', it.2) end end end end.
Definition recode (rev : gmap string (gmap Z string)) (fwd : gmap string (gmap string Z)) (A : clustering) : clustering :=
  map_imap (fun d a => Some (list_to_map (omap (rename rev fwd d) (map_to_list a)) : gmap Z Z)) A.
Lemma rename_Some rev fwd rev' d i t i' t' : decodes fwd rev' ->
  rename rev fwd d (i, t) = Some (i', t') <-> t' = t /\ exists x, named rev d i x /\ named rev' d i' x.
Proof.
  intros Hdec. unfold rename. cbn [fst snd]. split.
  - destruct (rev !! d) as [m|] eqn:Em; [|done]. destruct (m !! i) as [x|] eqn:Ex; [|done]. destruct (fwd !! d) as [f|] eqn:Ef; [|done].
    destruct (f !! x) as [j|] eqn:Ej; [|done]. intros [= -> ->]. split; [done|]. exists x. split; [by exists m|]. apply (named_fwd fwd); [done|]. by exists f.
  - intros (-> & x & (m & Hm & Hx) & (f & Hf & Hi)%(named_fwd fwd)); [|done]. by rewrite Hm, Hx, Hf, Hi.
Qed.
Lemma recode_seat fwd0 rev fwd rev' A d i' t : decodes fwd0 rev -> decodes fwd rev' ->
  seat (recode rev fwd A) d i' = Some t <-> exists i x, seat A d i = Some t /\ named rev d i x /\ named rev' d i' x.
Proof.
  intros H0 H1. unfold seat, recode. rewrite map_lookup_imap. destruct (A !! d) as [a|]; cbn.
  2:{ split; [done|]. by intros (? & ? & ? & _). }
  assert (forall t', (i', t') ∈ omap (rename rev fwd d) (map_to_list a) <-> exists i x, a !! i = Some t' /\ named rev d i x /\ named rev' d i' x) as Hin.
  { intros t'. rewrite elem_of_list_omap. split.
    - intros ([i s] & Hi%elem_of_map_to_list & E). apply (rename_Some rev fwd rev') in E as (-> & x & Hx & Hx'); [|done]. eauto 6.
    - intros (i & x & Hi & Hx & Hx'). exists (i, t'). split; [by apply elem_of_map_to_list|]. apply (rename_Some rev fwd rev'); eauto. }
  rewrite <- Hin. split; [apply elem_of_list_to_map_2|]. intros Ht. apply elem_of_list_to_map_1'; [|done].
  intros t' Ht'. apply Hin in Ht as (i & x & Hi & Hx & Hx'), Ht' as (j & y & Hj & Hy & Hy').
  pose proof (named_fun _ _ _ _ _ Hx' Hy') as <-. pose proof (named_inj _ _ _ _ _ _ H0 Hx Hy) as <-. congruence.
Qed.
Lemma recode_renamed fwd0 rev fwd rev' A : decodes fwd0 rev -> decodes fwd rev' ->
  (forall d i t, seat A d i = Some t -> exists x, named rev d i x) ->
  (forall d i t x, seat A d i = Some t -> named rev d i x -> exists i', named rev' d i' x) ->
  renamed rev rev' A (recode rev fwd A).
Proof.
  intros H0 H1 Hn Hk. split.
  - apply set_eq. intros d. rewrite !elem_of_dom. unfold recode. rewrite map_lookup_imap. destruct (A !! d); cbn; split; intros [? ?]; eauto; done.
  - done.
  - intros d i t (j & x & _ & _ & Hx)%(recode_seat fwd0 rev fwd rev'); eauto.
  - intros d x t. split.
    + intros (i & Hx & Hi). destruct (Hk d i t x Hi Hx) as [i' Hi']. exists i'. split; [done|]. apply (recode_seat fwd0 rev fwd rev'); eauto.
    + intros (i' & Hx' & Hs). apply (recode_seat fwd0 rev fwd rev') in Hs as (i & y & Hi & Hy & Hy'); [|done..].
      assert (x = y) as <- by (by eapply named_fun). eauto.
Qed.

(** ** What a file shows of one, it shows of the other *)
Lemma renamed_shows rev rev' A A' cl : renamed rev rev' A A' -> shows rev A cl -> shows rev' A' cl.
Proof.
  intros Hr [Ht Hne]. split; [|done]. intros d t l. rewrite Ht.
  assert (forall x, (exists i m, i ∈ customers_at (default ∅ (A !! d)) t /\ rev !! d = Some m /\ m !! i = Some x) <->
                    (exists i m, i ∈ customers_at (default ∅ (A' !! d)) t /\ rev' !! d = Some m /\ m !! i = Some x)) as Hx.
  { intros x. pose proof (rn_seats _ _ _ _ Hr d x t) as Hs. unfold seat in Hs. split.
    - intros (i & m & Hi & Hm & Hx). apply elem_of_customers_at in Hi. destruct (proj1 Hs) as (i' & (m' & Hm' & Hx') & Hi').
      + exists i. split; [by exists m|]. destruct (A !! d); [done|]. cbn in Hi. by rewrite lookup_empty in Hi.
      + exists i', m'. split; [|done]. apply elem_of_customers_at. by destruct (A' !! d).
    - intros (i & m & Hi & Hm & Hx). apply elem_of_customers_at in Hi. destruct (proj2 Hs) as (i' & (m' & Hm' & Hx') & Hi').
      + exists i. split; [by exists m|]. destruct (A' !! d); [done|]. cbn in Hi. by rewrite lookup_empty in Hi.
      + exists i', m'. split; [|done]. apply elem_of_customers_at. by destruct (A !! d). }
  assert (forall rv B, (forall d i s, seat B d i = Some s -> exists x, named rv d i x) -> forall b, B !! d = Some b ->
    customers_at b t <> ∅ <-> exists x, exists i m, i ∈ customers_at b t /\ rv !! d = Some m /\ m !! i = Some x) as Hemp.
  { intros rv B Hn b Hb. split.
    - intros [i Hi]%set_choose_L. destruct (Hn d i t) as (x & m & Hm & Hxx). { unfold seat. rewrite Hb. by apply elem_of_customers_at. } exists x, i, m. done.
    - intros (x & i & m & Hi & _) E. rewrite E in Hi. by apply elem_of_empty in Hi. }
  pose proof (rn_domains _ _ _ _ Hr) as Hd. assert (is_Some (A !! d) <-> is_Some (A' !! d)) as Hd' by (rewrite <- !elem_of_dom; by rewrite Hd).
  unfold names_of. split.
  - intros (a & Ha & Hc & Hs & Hnd & Hl). destruct (proj1 Hd') as [a' Ha']; [eauto|]. exists a'. rewrite Ha, Ha' in Hx. cbn in Hx. split_and!; [done| |done|done|].
    + apply (Hemp rev' A'); [apply Hr|done|]. apply (Hemp rev A) in Hc as [x Hxx]; [|apply Hr|done]. exists x. by apply Hx.
    + intros x. rewrite Hl. apply Hx.
  - intros (a' & Ha' & Hc & Hs & Hnd & Hl). destruct (proj2 Hd') as [a Ha]; [eauto|]. exists a. rewrite Ha, Ha' in Hx. cbn in Hx. split_and!; [done| |done|done|].
    + apply (Hemp rev A); [apply Hr|done|]. apply (Hemp rev' A') in Hc as [x Hxx]; [|apply Hr|done]. exists x. by apply Hx.
    + intros x. rewrite Hl. symmetry. apply Hx.
Qed.

(** ** The names of a file that could be read are known *)
Lemma foldM_each {S T} (f : S -> T -> outcome S) l : forall s s', foldM f s l = Ok s' -> forall x, x ∈ l -> exists s1 s2, f s1 x = Ok s2.
Proof.
  induction l as [|y l IH]; intros s s' H x Hx; [by apply elem_of_nil in Hx|]. cbn [foldM] in H. apply obind_Ok in H as (s1 & H1 & H).
  apply elem_of_cons in Hx as [->|Hx]; [eauto|by eapply IH].
Qed.
Lemma seat_clusters_known fwd cl W r st : seat_clusters fwd cl W r = Ok st -> forall d m t l x, cl !! d = Some m -> m !! t = Some l -> x ∈ l ->
  exists f i, fwd !! d = Some f /\ f !! x = Some i.
Proof.
  intros H d m t l x Hm Hl Hx. unfold seat_clusters in H.
  assert (d ∈ sorted_names cl) as Hd by (unfold sorted_names; rewrite merge_sort_Permutation, elem_of_elements, elem_of_dom; eauto).
  destruct (foldM_each _ _ _ _ H d Hd) as (s1 & s2 & H1). unfold seat_domain in H1. apply obind_Ok in H1 as (dm & _ & H1). apply obind_Ok in H1 as (u & _ & H1).
  rewrite Hm in H1. change (default ∅ (Some m)) with m in H1. assert (t ∈ sorted_keys m) as Ht by (apply P_base.elem_of_sorted_keys; eauto).
  destruct (foldM_each _ _ _ _ H1 t Ht) as (s3 & s4 & H2). unfold seat_table in H2. apply obind_Ok in H2 as (u' & _ & H2).
  rewrite Hl in H2. change (default [] (Some l)) with l in H2. destruct (foldM_each _ _ _ _ H2 x Hx) as ([W1 r1] & s6 & H3). unfold seat_item in H3.
  apply obind_Ok in H3 as (f & Hf%at_Ok & H3). apply obind_Ok in H3 as (i & Hi%at_Ok & _). eauto.
Qed.
(** Every entity that is shown is listed. *)
Lemma shows_listed rev A cl d i t x : shows rev A cl -> seat A d i = Some t -> named rev d i x -> exists m l, cl !! d = Some m /\ m !! t = Some l /\ x ∈ l.
Proof.
  intros [Hs _] Hi (m & Hm & Hx). unfold seat in Hi. destruct (A !! d) as [a|] eqn:Ha; [|done]. cbn in Hi.
  assert (i ∈ customers_at a t) as Hin by by apply elem_of_customers_at. pose proof (sorted_set_names rev d (customers_at a t)) as Hn.
  destruct (proj2 (Hs d t (sorted_set (item_names rev d (customers_at a t))))) as (mm & Hmm & Hl).
  - exists a. split_and!; [done| |done]. intros E. rewrite E in Hin. by apply elem_of_empty in Hin.
  - exists mm, (sorted_set (item_names rev d (customers_at a t))). split_and!; [done..|]. apply Hn. eauto.
Qed.
