(** Properties of the HIRM: C14 (constructor), C15, C16, C48. *)
From Coq Require Import String Ascii.
From stdpp Require Import gmap strings sorting.
From Coq Require Import ZArith Reals Lia.
From Verif Require Import M_base M_math M_crp M_domain M_dist M_relation M_noisy M_irm M_logp M_hirm
  S_crp S_crp_state S_relation S_irm S_hirm P_base P_math P_crp P_domain P_relation P_tally P_any P_irm P_irm_schema
  P_irm_history P_hirm P_hirm_move P_hirm_trans P_hirm_history P_hirm_ctor T_irm.
Local Open Scope string_scope.

(** * C14 *)
(** Whatever the relation names and the random draws: a schema in which every chain of
    bases ends in a clean relation is accepted, every other one is rejected with exit(1)
    (every relation having at least one domain). *)
Theorem C14_hirm_ctor_accepts {V} : forall (schema : gmap string (t_rel V)) r,
  schema_lawful schema -> (forall name t, schema !! name = Some t -> t_domains t <> []) ->
  (all_grounded schema -> exists h r', hirm_new schema r = Ok (h, r')) /\
  (~ all_grounded schema -> hirm_new schema r = Exits).
Proof.
  intros schema r HL Hne. destruct (proj2 (hirm_new_spec schema r HL) Hne) as [H1 H2]. split; [|done].
  intros Hg. destruct (H1 Hg) as [[h r'] H]. eauto.
Qed.
Print Assumptions C14_hirm_ctor_accepts.

(** What an accepted schema gives: all its relations, as declared and without observations;
    the list of noisy relations of each base is right. *)
Theorem C14_hirm_ctor_result {V} : forall (schema : gmap string (t_rel V)) r h r',
  schema_lawful schema -> hirm_new schema r = Ok (h, r') ->
  all_grounded schema /\ h_schema h = schema /\ hirm_listed_exactly h /\
  (forall name t, schema !! name = Some t -> t_domains t <> [] /\
     exists x, get_relation h name = Ok x /\ any_type x (t_observed t) = t /\ any_data x = ∅).
Proof.
  intros schema r h r' HL H. destruct (proj1 (hirm_new_spec schema r HL) _ _ H) as [([a Hh] & _ & Hl & Hd) Hs].
  split_and!; [rewrite <- Hs; apply Hh|done|done|]. intros name t Ht. rewrite <- Hs in Ht.
  split; [by apply (hh_domains _ _ Hh name)|].
  destruct (member h a name t Hh Ht) as (? & ? & ? & ? & x & _ & _ & _ & _ & _ & _ & _ & Htx & Hx).
  exists x. split_and!; [by apply get_relation_Ok|done|]. apply (Hd name). by rewrite (hirm_data_lookup h a name Hh), Hx.
Qed.
Print Assumptions C14_hirm_ctor_result.

(** Adding a relation later succeeds exactly when the name is new, the relation has a
    domain and its base, if it has one, is already declared. *)
Theorem C14_hirm_add_iff {V} : forall (schema : gmap string (t_rel V)) r h0 r0 cs h name t r1,
  schema_lawful schema -> hirm_new schema r = Ok (h0, r0) -> hirm_run h0 cs h -> hirm_call_ok h (HAdd name t r1) ->
  (exists h', hirm_do h (HAdd name t r1) = Ok h') <->
  h_schema h !! name = None /\ t_domains t <> [] /\ (forall b, t_base t = Some b -> is_Some (h_schema h !! b)).
Proof.
  intros schema r h0 r0 cs h name t r1 HL H0 Hrun [HLt Hb].
  destruct (proj1 (hirm_new_spec schema r HL) _ _ H0) as [([a0 Hh0] & _) _].
  destruct (hirm_run_spec h0 cs h Hrun a0 Hh0) as ([a Hh] & _).
  destruct (hirm_add_spec h a name t r1 Hh HLt Hb) as [H1 H2]. simpl. split.
  - intros [h' H]. apply obind_Ok in H as ([h1 r2] & H & _). by apply (H1 _ _ H).
  - intros Hm. destruct (H2 Hm) as [[h1 r2] Ha]. rewrite Ha. simpl. eauto.
Qed.
Print Assumptions C14_hirm_add_iff.

(** The schema the IRM constructor rejects (C14_irm_ctor_order_refuted) is accepted here; a
    cyclic one is not. *)
Definition C14_cycle : gmap string (t_rel bool) :=
  {[ "x" := TNoisy ["d"] true (copy_emission bool) tt "y"; "y" := TNoisy ["d"] true (copy_emission bool) tt "x";
     "z" := TClean ["d"] true tally_dist tt ]}.
Example C14_hirm_examples :
  (schema_lawful C14_schema /\ all_grounded C14_schema /\ exists h r, hirm_new C14_schema [0; 1] = Ok (h, r)) /\
  (schema_lawful C14_cycle /\ ~ all_grounded C14_cycle /\ hirm_new C14_cycle [0; 1] = Exits).
Proof.
  assert (schema_lawful C14_cycle) as HLc.
  { assert (forall name t, C14_cycle !! name = Some t -> t_lawful t /\ length (t_domains t) = 1) as H.
    { intros name t. unfold C14_cycle. intros [[<- <-]|[_ [[<- <-]|[_ [<- <-]%lookup_singleton_Some]]%lookup_insert_Some]]%lookup_insert_Some;
        (split; [|done]); [by exists (count_lawful _)|by exists (count_lawful _)|by exists tally_lawful]. }
    intros name t Ht. destruct (H name t Ht) as [? Hl]. split; [done|]. intros b tb _ Htb. rewrite Hl, (proj2 (H b tb Htb)). lia. }
  assert (all_grounded C14_schema) as Hg.
  { assert (grounded C14_schema "z") as Hz by (by eapply grounded_clean).
    intros name [t Ht]. unfold C14_schema in Ht. apply lookup_insert_Some in Ht as [[<- <-]|[_ Ht]]; [done|].
    apply lookup_singleton_Some in Ht as [<- <-]. by eapply grounded_noisy. }
  split.
  - split; [apply C14_irm_ctor_order_refuted|]. split; [done|].
    apply C14_hirm_ctor_accepts; [apply C14_irm_ctor_order_refuted| |done].
    intros name t. unfold C14_schema. by intros [[<- <-]|[_ [<- <-]%lookup_singleton_Some]]%lookup_insert_Some.
  - split; [done|]. assert (~ all_grounded C14_cycle) as Hng.
    { intros H. assert (forall n, grounded C14_cycle n -> n <> "x" /\ n <> "y") as Hn.
      { intros n Hn. induction Hn as [n t Ht Hb|n t b Ht Hb _ [IH1 IH2]].
        - split; intros ->; vm_compute in Ht; injection Ht as <-; done.
        - split; intros ->; vm_compute in Ht; injection Ht as <-; simpl in Hb; congruence. }
      destruct (Hn "x") as [? _]; [|done]. apply H. by eexists. }
    split; [done|]. apply C14_hirm_ctor_accepts; [done| |done].
    intros name t. unfold C14_cycle. by intros [[<- <-]|[_ [[<- <-]|[_ [<- <-]%lookup_singleton_Some]]%lookup_insert_Some]]%lookup_insert_Some.
Qed.

(** * C15 *)
(** After any history of calls on a newly constructed HIRM, with any random draws and
    iteration orders: names and codes correspond one to one and are those of the declared
    relations; the CRP seats exactly the codes; a declared relation is in the IRM of its
    cluster and in no other; the IRMs are those of the occupied clusters; none is empty,
    and each declares its relations as the HIRM does. *)
Theorem C15_structure {V} : forall (schema : gmap string (t_rel V)) r h0 r0 cs h,
  schema_lawful schema -> hirm_new schema r = Ok (h0, r0) -> hirm_run h0 cs h ->
  h_schema h = foldl hirm_schema_after schema cs /\
  dom (h_code h) = dom (h_schema h) /\
  (forall name rc, h_code h !! name = Some rc <-> h_rel h !! rc = Some name) /\
  dom (crp_assignments (h_crp h)) = dom (h_rel h) /\
  dom (h_irms h) = dom (crp_tables (h_crp h)) /\
  (forall tb rc, crp_assignments (h_crp h) !! rc = Some tb <-> exists s, crp_tables (h_crp h) !! tb = Some s /\ rc ∈ s) /\
  (forall name t, h_schema h !! name = Some t -> exists rc tb,
     h_code h !! name = Some rc /\ crp_assignments (h_crp h) !! rc = Some tb /\
     forall tb' ir, h_irms h !! tb' = Some ir ->
       (tb' = tb -> i_schema ir !! name = Some t /\ is_Some (i_rels ir !! name)) /\
       (tb' <> tb -> i_schema ir !! name = None /\ i_rels ir !! name = None)) /\
  (forall tb ir, h_irms h !! tb = Some ir ->
     i_rels ir <> ∅ /\ dom (i_rels ir) = dom (i_schema ir) /\ i_schema ir ⊆ h_schema h).
Proof.
  intros schema r h0 r0 cs h HL H0 Hrun.
  destruct (proj1 (hirm_new_spec schema r HL) _ _ H0) as [([a0 Hh0] & _) Hs0].
  destruct (hirm_run_spec h0 cs h Hrun a0 Hh0) as ([a Hh] & Hs & _). rewrite Hs0 in Hs.
  assert (forall tb ir, h_irms h !! tb = Some ir -> dom (i_rels ir) = dom (i_schema ir)) as Hdom.
  { intros tb ir Hir. destruct (irm_at_holds h a tb ir Hh Hir) as [A HA]. apply set_eq. intros n. rewrite !elem_of_dom. split.
    - intros [y Hy]. destruct (irm_schema_lookup _ ir A n y HA Hy) as (ty & Hty & _). eauto.
    - intros [ty Hty]. destruct (irm_rel_lookup _ ir A n ty HA Hty) as (y & Hy & _). eauto. }
  split_and!.
  - done.
  - apply set_eq. intros n. rewrite !elem_of_dom. apply (hh_schema _ _ Hh).
  - apply (hh_codes _ _ Hh).
  - apply set_eq. intros rc. rewrite !elem_of_dom, (hs_assign _ _ (hh_crp _ _ Hh)). apply (hh_seated _ _ Hh).
  - by apply (holds_dom_irms h a).
  - intros tb rc. rewrite (hs_assign _ _ (hh_crp _ _ Hh)), (hs_tables _ _ (hh_crp _ _ Hh)). rewrite <- elem_of_customers_at.
    destruct (decide (customers_at a tb = ∅)) as [He|He].
    + rewrite He. split; [set_solver|by intros (? & ? & _)].
    + split; [eauto|by intros (s & [= <-] & ?)].
  - intros name t Ht. destruct (member h a name t Hh Ht) as (rc & tb & ir & A & x & Hrc & Htb & Htab & Hir & HA & Hsn & Hrn & _).
    exists rc, tb. split; [done|]. split; [by rewrite (hs_assign _ _ (hh_crp _ _ Hh))|]. intros tb' ir' Hir'. split.
    + intros ->. assert (ir' = ir) as -> by congruence. eauto.
    + intros Hne. destruct (irm_at_other h a name t tb tb' ir' Hh Ht Htab Hir' Hne) as [Hd Hs']. split; [done|by apply not_elem_of_dom].
  - intros tb ir Hir. split_and!.
    + destruct (cluster_relation h a tb ir Hh Hir) as (n & ty & y & _ & _ & _ & Hy). intros He. by rewrite He, lookup_empty in Hy.
    + by eapply Hdom.
    + pose proof (hh_irms _ _ Hh tb) as Hi. rewrite Hir in Hi. destruct Hi as (_ & _ & Hm).
      apply map_subseteq_spec. intros n ty Hty. by apply Hm.
Qed.
Print Assumptions C15_structure.

(** Three relations, observations, explicit moves and removals. *)
Definition C15_schema : gmap string (t_rel bool) :=
  {[ "r" := TClean ["d"; "c"] true tally_dist tt; "a" := TNoisy ["d"; "c"] true (copy_emission bool) tt "r" ]}.
Definition C15_calls : list (hirm_call bool) :=
  [HAdd "q" (TClean ["d"] true tally_dist tt) [1]; HIncorporate "r" [1; 7]%Z true [0]; HIncorporate "r" [2; 7]%Z false [1];
   HIncorporate "a" [1; 7]%Z true []; HIncorporate "q" [5]%Z true [1]; HMove some_orders "r" 40 [0; 1; 0; 1];
   HMove some_orders "a" 40 [1]; HUnincorporate some_orders "q" [5]%Z; HRemove some_orders "q"].
Lemma C15_schema_lawful : schema_lawful C15_schema.
Proof.
  intros name t. unfold C15_schema. intros [[<- <-]|[Hne Ht]]%lookup_insert_Some.
  - split; [by exists tally_lawful|done].
  - apply lookup_singleton_Some in Ht as [<- <-]. split; [by exists (count_lawful _)|]. intros b tb [= <-].
    rewrite lookup_insert. intros [= <-]. simpl. lia.
Qed.


(** [hirm_call_ok] only looks at the declarations, so it can be checked along the calls. *)
Fixpoint calls_ok {V} (schema : gmap string (t_rel V)) (cs : list (hirm_call V)) : Prop :=
  match cs with
  | [] => True
  | c :: cs' => hirm_call_ok (Hirm schema ∅ ∅ ∅ ∅ crp_new) c /\ calls_ok (hirm_schema_after schema c) cs'
  end.
Lemma run_of_foldM {V} (cs : list (hirm_call V)) : forall h a h', hirm_holds h a -> foldM hirm_do h cs = Ok h' ->
  calls_ok (h_schema h) cs -> hirm_run h cs h'.
Proof.
  induction cs as [|c cs IH]; intros h a h' Hh H Hok; cbn [foldM] in H.
  { injection H as <-. constructor. }
  apply obind_Ok in H as (h1 & Hc & H). destruct Hok as [Hok Hoks].
  assert (hirm_call_ok h c) as Hok' by by destruct c.
  destruct (hirm_do_spec h a c h1 Hh Hok' Hc) as ([a1 Hh1] & Hs & _).
  econstructor; [done|done|]. eapply IH; [done|done|]. by rewrite Hs.
Qed.
Lemma start_and_run {V} (schema : gmap string (t_rel V)) r cs h :
  schema_lawful schema -> calls_ok schema cs ->
  (let* (h0, _) := hirm_new schema r in foldM hirm_do h0 cs) = Ok h ->
  exists h0 r0, hirm_new schema r = Ok (h0, r0) /\ foldM hirm_do h0 cs = Ok h /\ hirm_run h0 cs h.
Proof.
  intros HL Hok H. apply obind_Ok in H as ([h0 r0] & H0 & H). exists h0, r0. split_and!; [done|done|].
  destruct (proj1 (hirm_new_spec schema r HL) _ _ H0) as [([a Hh] & _) Hs]. eapply run_of_foldM; [done|done|]. by rewrite Hs.
Qed.
Lemma C15_calls_ok : calls_ok C15_schema C15_calls.
Proof.
  simpl. pose proof some_orders_ok as Ho. split_and!; try exact I; try exact Ho.
  - by exists tally_lawful.
  - done.
  - intros n t. unfold C15_schema. by intros [[<- <-]|[_ [[<- <-]|[_ [<- <-]%lookup_singleton_Some]]%lookup_insert_Some]]%lookup_insert_Some.
Qed.
Example C15_example : exists h0 r0 h, schema_lawful C15_schema /\ hirm_new C15_schema [0; 1] = Ok (h0, r0) /\
  hirm_run h0 C15_calls h /\ dom (h_irms h) = {[ 40%Z ]} /\ dom (h_code h) = {[ "r"; "a" ]}.
Proof.
  assert ((let* h := (let* (h0, _) := hirm_new C15_schema [0; 1] in foldM hirm_do h0 C15_calls) in
    Ok (dom (h_irms h), dom (h_code h))) = Ok ({[ 40%Z ]}, {[ "r"; "a" ]})) as H by by_compute.
  apply obind_Ok in H as (h & H & [= Hd1 Hd2]).
  destruct (start_and_run C15_schema [0; 1] C15_calls h C15_schema_lawful C15_calls_ok H) as (h0 & r0 & H0 & _ & Hrun).
  exists h0, r0, h. split_and!; try assumption. apply C15_schema_lawful.
Qed.

(** * C16 *)
(** A call that only moves relations between clusters. *)
Definition is_move {V} (c : hirm_call V) : Prop :=
  match c with HMove _ _ _ _ | HTransition _ _ _ | HTransitionAll _ _ => True | _ => False end.
(** The relations a move may touch. *)
Definition moves {V} (h : hirm V) (c : hirm_call V) (name : string) : Prop :=
  match c with
  | HMove _ n _ _ => name = n
  | HTransition _ ns _ => name ∈ ns
  | HTransitionAll _ _ => is_Some (h_schema h !! name)
  | _ => False
  end.

(** From every reachable state, a move that returns keeps the declarations and the codes;
    every relation keeps its declared type and all its observations; only the named
    relations can change cluster, and an explicit move puts the relation where asked. *)
Theorem C16_moves_keep_data {V} : forall (schema : gmap string (t_rel V)) r h0 r0 cs h c h',
  schema_lawful schema -> hirm_new schema r = Ok (h0, r0) -> hirm_run h0 cs h ->
  is_move c -> hirm_call_ok h c -> hirm_do h c = Ok h' ->
  h_schema h' = h_schema h /\ h_code h' = h_code h /\ h_rel h' = h_rel h /\ h_b2n h' = h_b2n h /\
  (forall name x, get_relation h name = Ok x -> exists x', get_relation h' name = Ok x' /\
     any_type x' true = any_type x true /\ any_data x' = any_data x) /\
  (forall name, ~ moves h c name -> relation_to_table h' name = relation_to_table h name) /\
  (forall o name tb r1, c = HMove o name tb r1 -> relation_to_table h' name = Ok tb).
Proof.
  intros schema r h0 r0 cs h c h' HL H0 Hrun Hmv Hok H.
  destruct (proj1 (hirm_new_spec schema r HL) _ _ H0) as [([a0 Hh0] & _) _].
  destruct (hirm_run_spec h0 cs h Hrun a0 Hh0) as ([a Hh] & _).
  assert (forall (h1 h2 : hirm V) n, table_of h2 n = table_of h1 n -> relation_to_table h2 n = relation_to_table h1 n \/
     (relation_to_table h2 n = Throws /\ relation_to_table h1 n = Throws)) as Htab.
  { intros h1 h2 n Ht. destruct (table_of h1 n) as [tb|] eqn:E.
    - left. rewrite (proj2 (relation_to_table_Ok _ _ _) E). by apply relation_to_table_Ok.
    - right. unfold table_of, relation_to_table in *.
      destruct (h_code h1 !! n) as [c1|], (h_code h2 !! n) as [c2|]; simpl in *;
        repeat match goal with |- context [at_ ?x] => destruct x; simpl in * end; done. }
  assert (forall names o r1 (h1 : hirm V) a1 h2 r2, orders_ok o -> hirm_holds h1 a1 -> hirm_transition o h1 names r1 = Ok (h2, r2) ->
    forall n, n ∉ names -> table_of h2 n = table_of h1 n) as Hkeep.
  { unfold hirm_transition. induction names as [|nm names IH]; intros o r1 h1 a1 h2 r2 Ho Hh1 Ht n Hn; cbn [foldM] in Ht.
    { by injection Ht as <- <-. }
    apply obind_Ok in Ht as ([h3 r3] & Hs & Ht).
    destruct (proj1 (transition_relation_spec h1 a1 o nm r1 Hh1 Ho) _ _ Hs) as (choice & rc & _ & Hh3 & _ & _ & _ & _ & _ & Ht3).
    rewrite (IH o r3 h3 _ h2 r2 Ho Hh3 Ht n) by (intros Hin; apply Hn; by right). rewrite Ht3, decide_False; [done|].
    intros ->. apply Hn. left. }
  assert (shuffled h h' /\ (forall name, ~ moves h c name -> table_of h' name = table_of h name) /\
    (forall o name tb r1, c = HMove o name tb r1 -> table_of h' name = Some tb)) as (((Hs & Hc & Hr & Hb) & Hd & a' & Hh') & Hstay & Hgo).
  { destruct c as [| | | |o name table r1|o names r1|o r1|]; try done; simpl in H, Hok |- *;
      apply obind_Ok in H as ([h1 r2] & H & [= <-]).
    - pose proof (proj1 (set_cluster_spec h a o name table r1 Hh Hok) _ _ H) as Hm. split; [by eapply moved_shuffled|].
      destruct Hm as (rc & _ & _ & _ & _ & _ & _ & _ & Ht). split.
      + intros n Hn. by rewrite Ht, decide_False.
      + intros o' n tb r' [= <- <- <- <-]. by rewrite Ht, decide_True.
    - split; [by apply (proj1 (hirm_transition_spec o names Hok h a r1 Hh) _ _ H)|]. split; [|done]. intros n Hn. by eapply Hkeep.
    - split; [by apply (proj1 (hirm_transition_spec o _ Hok h a r1 Hh) _ _ H)|]. split; [|done]. intros n Hn.
      eapply Hkeep; [done|done|done|]. destruct (Hok) as (_ & _ & Hon & _). rewrite Hon, elem_of_elements, elem_of_dom.
      intros Hin. apply Hn. by apply (hh_schema _ _ Hh). }
  split_and!; try done.
  - intros name x Hx. apply get_relation_Ok in Hx. destruct (hirm_lookup_declared h a name x Hh Hx) as (ty & Hty & Htx).
    destruct (member h' a' name ty Hh') as (? & ? & ? & ? & x' & _ & _ & _ & _ & _ & _ & _ & Htx' & Hx'); [by rewrite Hs|].
    exists x'. split_and!; [by apply get_relation_Ok| |].
    + eapply any_type_observed. by rewrite <- Htx', <- Htx.
    + pose proof (hirm_data_lookup h' a' name Hh') as H1. rewrite Hd, (hirm_data_lookup h a name Hh), Hx, Hx' in H1. simpl in H1. congruence.
  - intros name Hn. destruct (Htab h h' name (Hstay name Hn)) as [?|[? ?]]; congruence.
  - intros o name tb r1 E. apply relation_to_table_Ok. by eapply Hgo.
Qed.
Print Assumptions C16_moves_keep_data.

(** Over any history, the observations are exactly those entered and not taken out again:
    moves and inference inside the clusters do not count. *)
Theorem C16_history_data {V} : forall (schema : gmap string (t_rel V)) r h0 r0 cs h,
  schema_lawful schema -> hirm_new schema r = Ok (h0, r0) -> hirm_run h0 cs h ->
  hirm_data h = foldl hirm_data_after (no_data schema) cs.
Proof.
  intros schema r h0 r0 cs h HL H0 Hrun.
  destruct (proj1 (hirm_new_spec schema r HL) _ _ H0) as [([a0 Hh0] & _ & _ & Hd0) Hs0].
  destruct (hirm_run_spec h0 cs h Hrun a0 Hh0) as (_ & _ & Hd). rewrite Hd. f_equal.
  apply map_eq. intros n. unfold no_data. rewrite lookup_fmap. destruct (schema !! n) as [ty|] eqn:E; simpl.
  - rewrite <- Hs0 in E. destruct (member h0 a0 n ty Hh0 E) as (? & ? & ? & ? & x & _ & _ & _ & _ & _ & _ & _ & _ & Hx).
    assert (hirm_data h0 !! n = Some (any_data x)) as Hn by by rewrite (hirm_data_lookup h0 a0 n Hh0), Hx.
    rewrite Hn. by rewrite (Hd0 n _ Hn).
  - unfold hirm_data. rewrite map_lookup_imap, Hs0, E. done.
Qed.
Print Assumptions C16_history_data.

(** As long as no noisy relation was removed and no observation taken out that a noisy
    observation was paired with, every move of declared relations succeeds, whatever the
    random draws and iteration orders. *)
Theorem C16_moves_succeed {V} : forall (schema : gmap string (t_rel V)) r h0 r0 cs h,
  schema_lawful schema -> hirm_new schema r = Ok (h0, r0) -> hirm_gentle_run h0 cs h ->
  forall o r1, orders_ok o ->
  (forall name tb, is_Some (h_schema h !! name) -> exists h', hirm_do h (HMove o name tb r1) = Ok h') /\
  (forall names, (forall n, n ∈ names -> is_Some (h_schema h !! n)) -> exists h', hirm_do h (HTransition o names r1) = Ok h') /\
  (exists h', hirm_do h (HTransitionAll o r1) = Ok h').
Proof.
  intros schema r h0 r0 cs h HL H0 Hrun o r1 Ho.
  destruct (proj1 (hirm_new_spec schema r HL) _ _ H0) as [Hb0 _]. pose proof Hb0 as ([a0 Hh0] & _ & Hl0 & _).
  destruct (gentle_run_spec h0 cs h Hrun a0 Hh0 (built_closed schema h0 Hb0) Hl0) as (Hc & Hl & Hr).
  destruct (hirm_run_spec h0 cs h Hr a0 Hh0) as ([a Hh] & _). apply listed_exact_listed in Hl. simpl. split_and!.
  - intros name tb Hd. destruct (proj2 (set_cluster_spec h a o name tb r1 Hh Ho) Hd Hc Hl) as [[h' r'] H]. rewrite H. simpl. eauto.
  - intros names Hd. destruct (proj2 (hirm_transition_spec o names Ho h a r1 Hh) Hd Hc Hl) as [[h' r'] H]. rewrite H. simpl. eauto.
  - unfold hirm_transition_all. destruct (proj2 (hirm_transition_spec o (o_names o (dom (h_code h))) Ho h a r1 Hh)) as [[h' r'] H]; [|done|done|].
    + intros n Hn. destruct (Ho) as (_ & _ & Hon & _). rewrite Hon, elem_of_elements, elem_of_dom in Hn. by apply (hh_schema _ _ Hh).
    + rewrite H. simpl. eauto.
Qed.
Print Assumptions C16_moves_succeed.

(** Without the first restriction the claim is false: remove_relation does not take the
    noisy relation off the list of its base, and moving the base then throws. *)
Definition C16_calls1 : list (hirm_call bool) := [HRemove some_orders "a"].
Theorem C16_move_after_removal_refuted : exists h0 r0 h,
  schema_lawful C15_schema /\ hirm_new C15_schema [0; 1] = Ok (h0, r0) /\ hirm_run h0 C16_calls1 h /\
  is_Some (h_schema h !! "r") /\ hirm_do h (HMove some_orders "r" 40 []) = Throws.
Proof.
  assert ((let* h := (let* (h0, _) := hirm_new C15_schema [0; 1] in foldM hirm_do h0 C16_calls1) in
    Ok (bool_decide (is_Some (h_schema h !! "r")), match hirm_do h (HMove some_orders "r" 40 []) with Throws => true | _ => false end))
    = Ok (true, true)) as H by by_compute.
  apply obind_Ok in H as (h & H & [= Hd1 Hd2]).
  destruct (start_and_run C15_schema [0; 1] C16_calls1 h C15_schema_lawful) as (h0 & r0 & H0 & _ & Hrun); [|done|].
  { simpl. split; [|done]. split; [apply some_orders_ok|]. intros n t. unfold C15_schema.
    by intros [[<- <-]|[_ [<- <-]%lookup_singleton_Some]]%lookup_insert_Some. }
  exists h0, r0, h. split_and!; try assumption; [apply C15_schema_lawful|by apply bool_decide_eq_true in Hd1|].
  cbn [hirm_do] in Hd2 |- *. destruct (obind (hirm_set_cluster some_orders h "r" 40 []) _); solve [discriminate|reflexivity].
Qed.
Print Assumptions C16_move_after_removal_refuted.

(** Without the second one too: the noisy observation outlives the base observation it was
    paired with, and can then not be entered in another cluster. *)
Definition C16_calls2 : list (hirm_call bool) :=
  [HIncorporate "r" [1; 7]%Z true [0]; HIncorporate "a" [1; 7]%Z true []; HUnincorporate some_orders "r" [1; 7]%Z].
Theorem C16_move_without_base_value_refuted : exists h0 r0 h,
  schema_lawful C15_schema /\ hirm_new C15_schema [0; 1] = Ok (h0, r0) /\ hirm_run h0 C16_calls2 h /\
  is_Some (h_schema h !! "a") /\ hirm_do h (HMove some_orders "a" 40 []) = AssertFail.
Proof.
  assert ((let* h := (let* (h0, _) := hirm_new C15_schema [0; 1] in foldM hirm_do h0 C16_calls2) in
    Ok (bool_decide (is_Some (h_schema h !! "a")), match hirm_do h (HMove some_orders "a" 40 []) with AssertFail => true | _ => false end))
    = Ok (true, true)) as H by by_compute.
  apply obind_Ok in H as (h & H & [= Hd1 Hd2]).
  destruct (start_and_run C15_schema [0; 1] C16_calls2 h C15_schema_lawful) as (h0 & r0 & H0 & _ & Hrun); [|done|].
  { simpl. split_and!; try exact I. apply some_orders_ok. }
  exists h0, r0, h. split_and!; try assumption; [apply C15_schema_lawful|by apply bool_decide_eq_true in Hd1|].
  cbn [hirm_do] in Hd2 |- *. destruct (obind (hirm_set_cluster some_orders h "a" 40 []) _); solve [discriminate|reflexivity].
Qed.
Print Assumptions C16_move_without_base_value_refuted.

(** A gentle history with observations, after which every move is possible. *)
Definition C16_calls : list (hirm_call bool) :=
  [HIncorporate "r" [1; 7]%Z true [0]; HIncorporate "a" [1; 7]%Z true []; HMove some_orders "a" 40 [1; 0]].
Example C16_example : exists h0 r0 h h1 h2, schema_lawful C15_schema /\ hirm_new C15_schema [0; 1] = Ok (h0, r0) /\
  hirm_gentle_run h0 C16_calls h /\ hirm_run h0 C16_calls h /\
  hirm_data h = {[ "r" := {[ [1; 7]%Z := true ]}; "a" := {[ [1; 7]%Z := true ]} ]} /\
  hirm_do h (HMove some_orders "r" 17 [0; 2]) = Ok h1 /\ hirm_do h (HTransitionAll some_orders [1; 0; 1; 1; 0]) = Ok h2.
Proof.
  assert ((let* h := (let* (h0, _) := hirm_new C15_schema [0; 1] in foldM hirm_do h0 C16_calls) in
    Ok (hirm_data h)) = Ok {[ "r" := {[ [1; 7]%Z := true ]}; "a" := {[ [1; 7]%Z := true ]} ]}) as H by by_compute.
  apply obind_Ok in H as (h & H & [= Hd]).
  destruct (start_and_run C15_schema [0; 1] C16_calls h C15_schema_lawful) as (h0 & r0 & H0 & Hf & Hrun); [|done|].
  { simpl. split_and!; try exact I. apply some_orders_ok. }
  assert (hirm_gentle_run h0 C16_calls h) as Hg.
  { clear -Hf. unfold C16_calls in *. cbn [foldM] in Hf.
    repeat (apply obind_Ok in Hf as (? & ? & Hf); econstructor; [first [exact I|apply some_orders_ok]|exact I|eassumption|]).
    injection Hf as <-. constructor. }
  destruct (C16_moves_succeed C15_schema [0; 1] h0 r0 C16_calls h C15_schema_lawful H0 Hg some_orders [0; 2] some_orders_ok) as (Hm & _).
  destruct (C16_moves_succeed C15_schema [0; 1] h0 r0 C16_calls h C15_schema_lawful H0 Hg some_orders [1; 0; 1; 1; 0] some_orders_ok) as (_ & _ & [h2 H2]).
  destruct (Hm "r" 17%Z) as [h1 H1].
  { rewrite (proj1 (C15_structure C15_schema [0; 1] h0 r0 C16_calls h C15_schema_lawful H0 Hrun)).
    unfold C16_calls, C15_schema. cbn [foldl hirm_schema_after]. rewrite lookup_insert. eauto. }
  exists h0, r0, h, h1, h2. split_and!; try assumption. apply C15_schema_lawful.
Qed.

(** * C48 *)
(** In every reachable state every entity that an observation of one of the relations of an
    IRM mentions is in the domain of that IRM. *)
Theorem C48_entities_known {V} : forall (schema : gmap string (t_rel V)) r h0 r0 cs h tb ir name x d e,
  schema_lawful schema -> hirm_new schema r = Ok (h0, r0) -> hirm_run h0 cs h ->
  h_irms h !! tb = Some ir -> i_rels ir !! name = Some x -> any_mentions x d e -> in_domain ir d e.
Proof.
  intros schema r h0 r0 cs h tb ir name x d e HL H0 Hrun Hir Hx Hm.
  destruct (proj1 (hirm_new_spec schema r HL) _ _ H0) as [([a0 Hh0] & _) _].
  destruct (hirm_run_spec h0 cs h Hrun a0 Hh0) as ([a Hh] & _). destruct (irm_at_holds h a tb ir Hh Hir) as [A HA].
  apply (in_domain_seat _ ir A d e HA). eapply any_holds_mentions; [|done]. by eapply ih_rels.
Qed.
Print Assumptions C48_entities_known.

(** The converse is false: when a relation moves away, its entities stay in the domains its
    old IRM shares with other relations. *)
Definition C48_schema : gmap string (t_rel bool) :=
  {[ "r" := TClean ["d"] true tally_dist tt; "q" := TClean ["d"] true tally_dist tt ]}.
Definition C48_calls : list (hirm_call bool) :=
  [HIncorporate "r" [1]%Z true [0]; HIncorporate "q" [2]%Z true [0]; HMove some_orders "r" 40 [0]].
Theorem C48_entities_linger_refuted : exists h0 r0 h tb ir,
  schema_lawful C48_schema /\ hirm_new C48_schema [0; 0] = Ok (h0, r0) /\ hirm_run h0 C48_calls h /\
  h_irms h !! tb = Some ir /\ in_domain ir "d" 1 /\ forall name x, i_rels ir !! name = Some x -> ~ any_mentions x "d" 1.
Proof.
  assert (schema_lawful C48_schema) as HL.
  { intros name t. unfold C48_schema.
    by intros [[<- <-]|[_ [<- <-]%lookup_singleton_Some]]%lookup_insert_Some; (split; [by exists tally_lawful|]). }
  assert ((let* h := (let* (h0, _) := hirm_new C48_schema [0; 0] in foldM hirm_do h0 C48_calls) in
    let* tb := relation_to_table h "q" in
    let* ir := at_ (h_irms h !! tb) in
    let* dm := at_ (i_domains ir !! "d") in
    Ok (bool_decide (1%Z ∈ dom_items dm), (fun x => (any_doms x, any_data x)) <$> i_rels ir))
    = Ok (true, {[ "q" := (["d"], {[ [2]%Z := true ]}) ]})) as H by by_compute.
  apply obind_Ok in H as (h & H & Hr). apply obind_Ok in Hr as (tb & Htb & Hr). apply obind_Ok in Hr as (ir & Hir%at_Ok & Hr).
  apply obind_Ok in Hr as (dm & Hdm%at_Ok & Hr). injection Hr as Hin Hd. apply bool_decide_eq_true in Hin.
  destruct (start_and_run C48_schema [0; 0] C48_calls h HL) as (h0 & r0 & H0 & _ & Hrun); [|done|].
  { simpl. split_and!; try exact I. apply some_orders_ok. }
  exists h0, r0, h, tb, ir. split; [exact HL|]. split; [exact H0|]. split; [exact Hrun|]. split; [exact Hir|].
  split; [exists dm; split; [exact Hdm|exact Hin]|]. clear H H0 Hrun.
  intros name x Hx (items & [v Hv] & Hm).
  assert (((fun x => (any_doms x, any_data x)) <$> i_rels ir) !! name = Some (any_doms x, any_data x)) as Hl by by rewrite lookup_fmap, Hx.
  rewrite Hd in Hl. apply lookup_singleton_Some in Hl as [_ [= Hd1 Hd2]]. rewrite <- Hd2 in Hv.
  apply lookup_singleton_Some in Hv as [<- _]. rewrite <- Hd1 in Hm. unfold mentions in Hm. simpl in Hm.
  apply elem_of_list_singleton in Hm. congruence.
Qed.
Print Assumptions C48_entities_linger_refuted.
Example C48_example : exists h0 r0 h tb ir x, schema_lawful C15_schema /\ hirm_new C15_schema [0; 1] = Ok (h0, r0) /\
  hirm_run h0 C16_calls h /\ h_irms h !! tb = Some ir /\ i_rels ir !! "a" = Some x /\ any_mentions x "d" 1.
Proof.
  destruct C16_example as (h0 & r0 & h & _ & _ & HL & H0 & _ & Hrun & Hd & _).
  destruct (proj1 (hirm_new_spec C15_schema [0; 1] HL) _ _ H0) as [([a0 Hh0] & _) _].
  destruct (hirm_run_spec h0 C16_calls h Hrun a0 Hh0) as ([a Hh] & Hs & _).
  destruct (member h a "a" (TNoisy ["d"; "c"] true (copy_emission bool) tt "r") Hh) as (rc & tb & ir & A & x & _ & _ & _ & Hir & _ & _ & Hx & Htx & Hl).
  { rewrite Hs. destruct (proj1 (hirm_new_spec C15_schema [0; 1] HL) _ _ H0) as [_ ->].
    unfold C16_calls, C15_schema. cbn [foldl hirm_schema_after]. by rewrite lookup_insert_ne, lookup_singleton. }
  exists h0, r0, h, tb, ir, x. split_and!; try assumption. exists [1; 7]%Z.
  pose proof (hirm_data_lookup h a "a" Hh) as Hdx. rewrite Hl, Hd in Hdx. simpl in Hdx.
  assert (any_data x = {[ [1; 7]%Z := true ]}) as ->. { rewrite lookup_insert_ne, lookup_singleton in Hdx by done. by injection Hdx as <-. }
  rewrite lookup_singleton. split; [eauto|]. rewrite <- (any_type_t_domains x true).
  cbn [t_observed] in Htx; rewrite <- Htx. unfold mentions. simpl. left.
Qed.
