(** Theorems about the IRM: C12, C13, C14 (constructor of the IRM), C46, C47. *)
From Coq Require Import String Ascii.
From stdpp Require Import gmap strings sorting.
From Coq Require Import ZArith Reals Lra Lia.
From Verif Require Import M_base M_crp M_domain M_dist M_relation M_noisy M_irm
  S_crp S_crp_state S_relation S_irm P_base P_crp P_domain P_relation P_any P_irm P_irm_schema P_irm_history P_irm_gibbs P_irm_pos
  P_lgamma P_tally.
Local Open Scope string_scope.

(** * C12 *)
(** After any history of calls on an IRM made from a schema: the stored
    observations are what the calls say, an entity is in a domain exactly when some
    stored observation mentions it there, and all bookkeeping is consistent. *)
Theorem C12_entities_iff_observed {V} : forall (schema : gmap string (t_rel V)) ir0 cs ir,
  schema_lawful schema -> irm_new schema = Ok ir0 -> Forall irm_call_ok cs -> foldM irm_do ir0 cs = Ok ir ->
  i_schema ir = schema /\
  irm_data ir = foldl irm_data_after (no_data schema) cs /\
  (forall d e, in_domain ir d e <-> data_mentions schema (foldl irm_data_after (no_data schema) cs) d e) /\
  exists A, irm_holds (schema_arity schema) ir A.
Proof.
  intros schema ir0 cs ir HL Hn Hok Hf. destruct (irm_new_tight schema ir0 HL Hn) as (A0 & Hh0 & Ht0 & Hs0 & Hd0).
  destruct (irm_history _ cs ir0 A0 ir Hh0 Ht0 Hok Hf) as (A & Hh & Ht & (Hs & _) & Hd).
  rewrite Hs0 in Hs. rewrite Hd0 in Hd. split_and!; [done|done| |by exists A].
  intros d e. rewrite (in_domain_seat _ ir A d e Hh), (Ht d e), <- Hd, <- Hs.
  by rewrite (data_mentions_irm _ ir A d e Hh).
Qed.
Print Assumptions C12_entities_iff_observed.

(** One call: its effect on the observations and on the clustering. *)
Theorem C12_call_effect {V} : forall ar (ir : irm V) A c ir',
  irm_holds ar ir A -> irm_tight ir A -> irm_call_ok c -> irm_do ir c = Ok ir' ->
  exists A', irm_holds ar ir' A' /\ irm_tight ir' A' /\ i_schema ir' = i_schema ir /\
    irm_data ir' = irm_data_after (irm_data ir) c /\
    irm_clustering_after (fun name => from_option t_domains [] (i_schema ir !! name)) A A' c.
Proof.
  intros ar ir A c ir' Hh Ht Hok H. destruct (irm_do_effect ar ir A c ir' Hh Ht Hok H) as (A' & ? & ? & (? & _) & ? & ?). by exists A'.
Qed.
Print Assumptions C12_call_effect.

(** Exactly the legal calls succeed. *)
Theorem C12_incorporate_succeeds_iff {V} : forall ar (ir : irm V) A name items v r,
  irm_holds ar ir A ->
  (exists st, irm_incorporate (irm_lookup ir) ir name items v r = Ok st) <->
  exists t m, i_schema ir !! name = Some t /\ irm_data ir !! name = Some m /\
    length items = length (t_domains t) /\ m !! items = None /\ t_accepts (i_schema ir) (irm_data ir) t items v.
Proof. intros. by eapply irm_incorporate_iff. Qed.
Print Assumptions C12_incorporate_succeeds_iff.

Theorem C12_unincorporate_succeeds_iff {V} : forall (schema : gmap string (t_rel V)) ir0 cs ir o name items,
  schema_lawful schema -> irm_new schema = Ok ir0 -> Forall irm_call_ok cs -> foldM irm_do ir0 cs = Ok ir -> orders_ok o ->
  (exists ir', irm_unincorporate (irm_lookup ir) o ir name items = Ok ir') <->
  exists m, irm_data ir !! name = Some m /\ is_Some (m !! items).
Proof.
  intros schema ir0 cs ir o name items HL Hn Hok Hf Ho. destruct (irm_new_tight schema ir0 HL Hn) as (A0 & Hh0 & Ht0 & Hs0 & Hd0).
  destruct (irm_history _ cs ir0 A0 ir Hh0 Ht0 Hok Hf) as (A & Hh & Ht & (Hs & _) & Hd).
  eapply irm_unincorporate_iff; [exact Hh| |done].
  intros n t b Hn' Hb. rewrite Hs, Hs0 in *.
  destruct (proj1 (irm_new_iff schema) (ex_intro _ ir0 Hn) n t Hn') as [_ Hbase]. by apply Hbase.
Qed.
Print Assumptions C12_unincorporate_succeeds_iff.

Theorem C12_has_observation {V} : forall ar (ir : irm V) A o d e,
  irm_holds ar ir A -> irm_tight ir A -> orders_ok o ->
  (exists name t, i_schema ir !! name = Some t /\ d ∈ t_domains t) ->
  exists b, irm_has_observation o ir d e = Ok b /\ (b = true <-> in_domain ir d e).
Proof.
  intros ar ir A o d e Hh Ht Ho (name & t & Hs & Hd).
  destruct (irm_rel_lookup ar ir A name t Hh Hs) as (a & Ha & _ & Htd).
  destruct (irm_has_observation_spec ar o ir A d e Hh Ht Ho) as (b & Hb & Hiff).
  { apply (ih_used _ _ _ Hh). exists name, a. by rewrite <- Htd. }
  exists b. split; [done|]. by rewrite Hiff, (in_domain_seat ar ir A d e Hh).
Qed.
Print Assumptions C12_has_observation.

(** A schema with a clean and a noisy relation over shared domains, and a history
    that uses every kind of call. *)
Definition C12_schema : gmap string (t_rel bool) :=
  {[ "r" := TClean ["d"; "c"] true tally_dist tt;
     "s" := TNoisy ["d"; "c"; "d"] true (copy_emission bool) tt "r" ]}.
Definition some_orders : orders := Orders elements map_to_list elements elements.
Lemma some_orders_ok : orders_ok some_orders.
Proof. split_and!; by intros ?. Qed.
Definition C12_calls : list (irm_call bool) :=
  [IIncorporate "r" [1; 7]%Z true [0]; IIncorporate "r" [2; 7]%Z false [1]; IIncorporate "s" [1; 7; 3]%Z true [];
   IIncorporate "s" [1; 7; 4]%Z false [1]; IUnincorporate some_orders "s" [1; 7; 3]%Z].
Lemma C12_schema_lawful : schema_lawful C12_schema.
Proof.
  intros name t. unfold C12_schema. intros [[<- <-]|[Hne Ht]]%lookup_insert_Some.
  - split; [by exists tally_lawful|done].
  - apply lookup_singleton_Some in Ht as [<- <-]. split; [by exists (count_lawful _)|]. intros b tb [= <-].
    rewrite lookup_insert. intros [= <-]. simpl. lia.
Qed.
Example C12_example : exists ir0 ir, irm_new C12_schema = Ok ir0 /\ foldM irm_do ir0 C12_calls = Ok ir /\
  Forall irm_call_ok C12_calls /\ schema_lawful C12_schema /\
  in_domain ir "d" 4 /\ ~ in_domain ir "d" 3 /\
  exists ir2, irm_do ir (ITransitionAll some_orders [1; 0; 2]) = Ok ir2.
Proof.
  assert (exists ir0, irm_new C12_schema = Ok ir0) as [ir0 H0].
  { apply irm_new_iff. intros name t. unfold C12_schema. intros [[<- <-]|[Hne Ht]]%lookup_insert_Some; [done|].
    apply lookup_singleton_Some in Ht as [<- <-]. split; [done|]. intros b [= <-]. split; [by rewrite lookup_insert|].
    split; [done|]. done. }
  assert (Forall irm_call_ok C12_calls) as Hok.
  { unfold C12_calls. repeat (apply Forall_cons; split; [try exact I; try apply some_orders_ok|]). constructor. }
  assert ((let* ir0 := irm_new C12_schema in let* ir := foldM irm_do ir0 C12_calls in
           Ok (dom_items <$> i_domains ir)) = Ok {[ "d" := {[ 1; 2; 4 ]}; "c" := {[ 7 ]} ]}%Z) as H by by_compute.
  rewrite H0 in H. cbn [obind] in H. apply obind_Ok in H as (ir & Hf & [= Hd]).
  exists ir0, ir. split_and!; try done.
  - apply C12_schema_lawful.
  - assert ((dom_items <$> i_domains ir) !! "d" = Some {[ 1; 2; 4 ]}%Z) as Hdd by by rewrite Hd, lookup_insert.
    rewrite lookup_fmap in Hdd. destruct (i_domains ir !! "d") as [dm|] eqn:E; [|done]. injection Hdd as Hdd.
    exists dm. split; [done|]. rewrite Hdd. set_solver.
  - assert ((dom_items <$> i_domains ir) !! "d" = Some {[ 1; 2; 4 ]}%Z) as Hdd by by rewrite Hd, lookup_insert.
    rewrite lookup_fmap in Hdd. intros (dm & E & He). rewrite E in Hdd. injection Hdd as Hdd. rewrite Hdd in He. set_solver.
  - destruct (C12_entities_iff_observed C12_schema ir0 C12_calls ir C12_schema_lawful H0 Hok Hf) as (_ & _ & _ & A & Hh).
    destruct (transition_all_spec _ some_orders ir A [1; 0; 2] Hh some_orders_ok) as (ir2 & r2 & A2 & H2 & _).
    exists ir2. simpl. by rewrite H2.
Qed.

(** * C13 *)
(** Cluster transitions of one entity, of listed domains or of all domains never
    fail, whatever the draws and the iteration orders; they keep all observations,
    the entities of every domain and the schema, and move only the named entities. *)
Theorem C13_transition_item {V} : forall ar (ir : irm V) A o d e r,
  irm_holds ar ir A -> orders_ok o -> in_domain ir d e ->
  exists ir' r' A', irm_transition_item o ir d e r = Ok (ir', r') /\ irm_holds ar ir' A' /\
    irm_data ir' = irm_data ir /\ i_schema ir' = i_schema ir /\ same_entities A A' /\
    (forall d' e', in_domain ir' d' e' <-> in_domain ir d' e') /\
    (forall d' e', (d', e') <> (d, e) -> seat A' d' e' = seat A d' e').
Proof.
  intros ar ir A o d e r Hh Ho Hin. apply (in_domain_seat ar ir A d e Hh) in Hin.
  destruct (irm_transition_item_spec ar o ir A d e r Hh Ho Hin) as (ir' & r' & A' & H & Hh' & (Hs & _) & Hd & HA').
  assert (same_entities A A') as Hse.
  { destruct HA' as [->|[t ->]]; [done|]. by apply same_entities_move. }
  exists ir', r', A'. split_and!; try done.
  - intros d' e'. rewrite (in_domain_seat ar ir' A' d' e' Hh'), (in_domain_seat ar ir A d' e' Hh). apply Hse.
  - intros d' e' Hne. destruct HA' as [->|[t ->]]; [done|]. rewrite seat_move, decide_False; [done|]. intros (-> & -> & _). done.
Qed.
Print Assumptions C13_transition_item.

Theorem C13_transitions {V} : forall ar (ir : irm V) A o ds r,
  irm_holds ar ir A -> orders_ok o -> (forall d, d ∈ ds -> is_Some (i_domains ir !! d)) ->
  exists ir' r' A', irm_transition o ir ds r = Ok (ir', r') /\ irm_holds ar ir' A' /\
    irm_data ir' = irm_data ir /\ i_schema ir' = i_schema ir /\
    (forall d e, in_domain ir' d e <-> in_domain ir d e) /\
    (forall d e, d ∉ ds -> seat A' d e = seat A d e).
Proof.
  intros ar ir A o ds r Hh Ho Hds.
  destruct (transition_spec ar o ds ir A r Hh Ho) as (ir' & r' & A' & H & Hh' & ((Hs & _) & Hd & Hse) & Hk).
  { intros d Hd. destruct (Hds d Hd) as [dm Hdm]. pose proof (ih_world _ _ _ Hh d) as Hw. rewrite Hdm in Hw.
    apply elem_of_dom. destruct (A !! d); [eauto|done]. }
  exists ir', r', A'. split_and!; try done.
  intros d' e'. rewrite (in_domain_seat ar ir' A' d' e' Hh'), (in_domain_seat ar ir A d' e' Hh). apply Hse.
Qed.
Print Assumptions C13_transitions.

Theorem C13_transitions_all {V} : forall ar (ir : irm V) A o r,
  irm_holds ar ir A -> orders_ok o ->
  exists ir' r' A', irm_transition_all o ir r = Ok (ir', r') /\ irm_holds ar ir' A' /\
    irm_data ir' = irm_data ir /\ i_schema ir' = i_schema ir /\
    (forall d e, in_domain ir' d e <-> in_domain ir d e).
Proof.
  intros ar ir A o r Hh Ho.
  destruct (transition_all_spec ar o ir A r Hh Ho) as (ir' & r' & A' & H & Hh' & ((Hs & _) & Hd & Hse)).
  exists ir', r', A'. split_and!; try done.
  intros d' e'. rewrite (in_domain_seat ar ir' A' d' e' Hh'), (in_domain_seat ar ir A d' e' Hh). apply Hse.
Qed.
Print Assumptions C13_transitions_all.

(** A whole inference step (clusters, hyperparameters, concentrations). *)
Theorem C13_inference_step {V} : forall ar (ir : irm V) A lg o r ir' r',
  irm_holds ar ir A -> orders_ok o -> irm_single_step lg o ir false r = Ok (ir', r') ->
  exists A', irm_holds ar ir' A' /\ irm_data ir' = irm_data ir /\ i_schema ir' = i_schema ir /\
    (forall d e, in_domain ir' d e <-> in_domain ir d e).
Proof.
  intros ar ir A lg o r ir' r' Hh Ho H.
  destruct (single_step_spec ar lg o ir A r ir' r' Hh Ho H) as (A' & Hh' & ((Hs & _) & Hd & Hse)).
  exists A'. split_and!; try done.
  intros d' e'. rewrite (in_domain_seat ar ir' A' d' e' Hh'), (in_domain_seat ar ir A d' e' Hh). apply Hse.
Qed.
Print Assumptions C13_inference_step.

Example C13_example : exists ir A, irm_holds (schema_arity C12_schema) ir A /\ in_domain ir "d" 4 /\ i_schema ir = C12_schema.
Proof.
  destruct C12_example as (ir0 & ir & H0 & Hf & Hok & HL & Hin & _).
  destruct (C12_entities_iff_observed C12_schema ir0 C12_calls ir HL H0 Hok Hf) as (Hs & _ & _ & A & Hh). by exists ir, A.
Qed.

(** * C14: the constructor of the IRM *)
(** It succeeds exactly when every relation has a domain and the base of every
    noisy relation is declared under a name that sorts before it. *)
Theorem C14_irm_ctor_iff {V} : forall schema : gmap string (t_rel V),
  (exists ir, irm_new schema = Ok ir) <->
  forall name t, schema !! name = Some t ->
    t_domains t <> [] /\ forall b, t_base t = Some b -> is_Some (schema !! b) /\ str_lt b name.
Proof. exact irm_new_iff. Qed.
Print Assumptions C14_irm_ctor_iff.

Theorem C14_irm_ctor_result {V} : forall (schema : gmap string (t_rel V)) ir, schema_lawful schema -> irm_new schema = Ok ir ->
  exists A, irm_holds (schema_arity schema) ir A /\ i_schema ir = schema /\ irm_data ir = no_data schema /\
    (forall d e, ~ in_domain ir d e).
Proof.
  intros schema ir HL Hn. destruct (irm_new_tight schema ir HL Hn) as (A & Hh & Ht & Hs & Hd).
  exists A. split_and!; try done. intros d e. rewrite (in_domain_seat _ ir A d e Hh), (Ht d e).
  rewrite <- (data_mentions_irm _ ir A d e Hh), Hd. intros (n & t & m & items & _ & Hm & [v Hi] & _).
  unfold no_data in Hm. rewrite lookup_fmap in Hm. destruct (schema !! n); [|done]. injection Hm as <-. by rewrite lookup_empty in Hi.
Qed.
Print Assumptions C14_irm_ctor_result.

(** An acyclic schema with every base declared is rejected, only because of a name. *)
Definition C14_schema : gmap string (t_rel bool) :=
  {[ "z" := TClean ["d"] true tally_dist tt; "a" := TNoisy ["d"] true (copy_emission bool) tt "z" ]}.
Theorem C14_irm_ctor_order_refuted : schema_lawful C14_schema /\ irm_new C14_schema = Throws.
Proof.
  split.
  - intros name t. unfold C14_schema. intros [[<- <-]|[Hne Ht]]%lookup_insert_Some.
    + split; [by exists tally_lawful|done].
    + apply lookup_singleton_Some in Ht as [<- <-]. split; [by exists (count_lawful _)|]. intros b tb [= <-].
      rewrite lookup_insert. intros [= <-]. simpl. lia.
  - reflexivity.
Qed.
Print Assumptions C14_irm_ctor_order_refuted.

(** * C46: Gibbs moves compare the right scores *)
(** For every reachable state, every entity and every candidate cluster [t] other
    than the present one: the log weights the transition gives to [t] and to the
    present cluster differ exactly by the difference of the joint log score of the
    IRM after and before moving the entity to [t]. *)
Theorem C46_gibbs_target {V} : forall (schema : gmap string (t_rel V)) ir0 cs ir lg o o' d e cur t i j tables logps ir1 r r1 x y ir' r2 r',
  is_lgamma lg -> schema_lawful schema -> (forall name t, schema !! name = Some t -> t_determined t) ->
  irm_new schema = Ok ir0 -> Forall irm_call_ok cs -> foldM irm_do ir0 cs = Ok ir ->
  orders_ok o -> orders_ok o' ->
  (exists dm, i_domains ir !! d = Some dm /\ dom_get_cluster dm e = Ok cur) ->
  irm_item_logps o ir d e r = Ok (tables, logps, ir1, r1) ->
  tables !! i = Some t -> tables !! j = Some cur -> logps !! i = Some x -> logps !! j = Some y ->
  irm_move_item o' ir d e t r2 = Ok (ir', r') ->
  (x - y = irm_logp_score lg ir' - irm_logp_score lg ir)%R.
Proof.
  intros schema ir0 cs ir lg o o' d e cur t i j tables logps ir1 r r1 x y ir' r2 r' Hlg HL Hdet Hn Hok Hf Ho Ho' (dm & Hdm & Hcur) Hlp Hti Htj Hx Hy Hmv.
  destruct (irm_new_tight schema ir0 HL Hn) as (A0 & Hh0 & Ht0 & Hs0 & Hd0).
  destruct (irm_history _ cs ir0 A0 ir Hh0 Ht0 Hok Hf) as (A & Hh & Ht & (Hs & _) & Hd).
  eapply (irm_gibbs_target _ lg o o' ir A d e cur t i j); try done.
  - by eapply irm_history_positive, Hf; [by eapply irm_new_positive|..].
  - eapply determined_schema; [exact Hh|]. by rewrite Hs, Hs0.
  - pose proof (ih_world _ _ _ Hh d) as Hw. rewrite Hdm in Hw. destruct (A !! d) as [sa|] eqn:E; [|done].
    rewrite (dom_get_cluster_spec dm sa e Hw) in Hcur. unfold seat. rewrite E. simpl. destruct (sa !! e); [|done]. by injection Hcur as ->.
Qed.
Print Assumptions C46_gibbs_target.

(** The candidates: every occupied cluster and one empty one, the present cluster
    always among them, each with a log weight; scoring them changes nothing. *)
Theorem C46_candidates {V} : forall ar (ir : irm V) A o d e r,
  irm_holds ar ir A -> orders_ok o -> in_domain ir d e ->
  exists cur tables logps r', seat A d e = Some cur /\ irm_item_logps o ir d e r = Ok (tables, logps, ir, r') /\
    length logps = length tables /\ NoDup tables /\ cur ∈ tables /\
    (forall e' t, seat A d e' = Some t -> t ∈ tables) /\
    (exists tnew, (forall e', seat A d e' = Some tnew -> e' = e) /\ forall t, t ∈ tables <-> t = tnew \/ exists e', e' <> e /\ seat A d e' = Some t).
Proof.
  intros ar ir A o d e r Hh Ho Hin. apply (in_domain_seat ar ir A d e Hh) in Hin as [cur Hcur].
  destruct (irm_item_logps_spec ar o ir A d e cur r Hh Ho Hcur)
    as (dm & sa & w & tables & logps & r1 & Hlp & HWd & HAd & Hsa & Hw & -> & Hne & Hlen).
  pose proof (ih_world _ _ _ Hh d) as Hdm. rewrite HWd, HAd in Hdm. destruct Hdm as [_ Hds].
  destruct (P_crp_score.gibbs_weights (dom_crp dm) sa e cur Hds Hsa) as (w' & tnew & Hw' & Hnew & Hcn & Hlk & _).
  rewrite Hw in Hw'. injection Hw' as <-.
  assert (forall e', seat A d e' = sa !! e') as Hseat by (intros; unfold seat; by rewrite HAd).
  assert (forall t, t ∈ sorted_keys w <-> t = tnew \/ exists e', e' <> e /\ seat A d e' = Some t) as Hiff.
  { intros t. rewrite elem_of_sorted_keys, Hlk. destruct (decide (customers_at (delete e sa) t = ∅)) as [He|He].
    - split.
      + intros [x Hx]. left. by destruct (decide (t = tnew)).
      + intros [->|(e' & Hne' & He')]; [by rewrite decide_True|]. exfalso.
        assert (e' ∈ customers_at (delete e sa) t) as Hi by (apply elem_of_customers_at; rewrite lookup_delete_ne by done; by rewrite <- Hseat).
        rewrite He in Hi. set_solver.
    - split; [|eauto]. intros _. right. apply set_choose_L in He as [e' He']. apply elem_of_customers_at in He'.
      apply lookup_delete_Some in He' as [? ?]. exists e'. by rewrite Hseat. }
  assert (cur ∈ sorted_keys w) as Hcin.
  { apply Hiff. destruct (decide (customers_at sa cur = {[e]})) as [He|He]; [left; by rewrite Hcn|]. right.
    destruct (decide (customers_at sa cur ∖ {[e]} = ∅)) as [He2|He2].
    - exfalso. apply He. apply set_eq. intros x. split.
      + intros Hx. destruct (decide (x = e)) as [->|]; [set_solver|]. assert (x ∈ customers_at sa cur ∖ {[e]}) as Hx2 by set_solver.
        rewrite He2 in Hx2. set_solver.
      + intros ->%elem_of_singleton. by apply elem_of_customers_at.
    - apply set_choose_L in He2 as [x Hx]. apply elem_of_difference in Hx as [Hx Hxe]. apply elem_of_customers_at in Hx.
      exists x. split; [set_solver|]. by rewrite Hseat. }
  exists cur, (sorted_keys w), logps, r1. split_and!; try done.
  - apply NoDup_sorted_keys.
  - intros e' t He'. destruct (decide (e' = e)) as [->|Hne']; [|apply Hiff; eauto]. rewrite Hcur in He'. by injection He' as <-.
  - exists tnew. split; [|done]. intros e' He'. destruct (decide (e' = e)) as [|Hne']; [done|]. exfalso.
    assert (e' ∈ customers_at (delete e sa) tnew) as Hi by (apply elem_of_customers_at; rewrite lookup_delete_ne by done; by rewrite <- Hseat).
    rewrite Hnew in Hi. set_solver.
Qed.
Print Assumptions C46_candidates.

(** A state, an entity, a candidate and a move for which all hypotheses hold. *)
Definition C46_schema : gmap string (t_rel bool) :=
  {[ "r" := TClean ["d"; "c"] true tally_dist tt; "s" := TNoisy ["d"; "c"] true (copy_emission bool) tt "r" ]}.
Definition C46_calls : list (irm_call bool) :=
  [IIncorporate "r" [1; 7]%Z true [0]; IIncorporate "r" [2; 7]%Z false [1]; IIncorporate "s" [1; 7]%Z true []].
Lemma C46_schema_lawful : schema_lawful C46_schema.
Proof.
  intros name t. unfold C46_schema. intros [[<- <-]|[Hne Ht]]%lookup_insert_Some.
  - split; [by exists tally_lawful|done].
  - apply lookup_singleton_Some in Ht as [<- <-]. split; [by exists (count_lawful _)|]. intros b tb [= <-].
    rewrite lookup_insert. intros [= <-]. simpl. lia.
Qed.
Example C46_example : exists ir0 ir lg cur t i j tables logps ir1 r1 x y ir' r',
  is_lgamma lg /\ schema_lawful C46_schema /\ (forall name t, C46_schema !! name = Some t -> t_determined t) /\
  irm_new C46_schema = Ok ir0 /\ Forall irm_call_ok C46_calls /\ foldM irm_do ir0 C46_calls = Ok ir /\
  (exists dm, i_domains ir !! "d" = Some dm /\ dom_get_cluster dm 1 = Ok cur) /\
  irm_item_logps some_orders ir "d" 1 [] = Ok (tables, logps, ir1, r1) /\
  tables !! i = Some t /\ tables !! j = Some cur /\ logps !! i = Some x /\ logps !! j = Some y /\ t <> cur /\
  irm_move_item some_orders ir "d" 1 t [] = Ok (ir', r').
Proof.
  pose proof C46_schema_lawful as HL.
  assert (forall name t, C46_schema !! name = Some t -> t_determined t) as Hdet.
  { intros name t. unfold C46_schema. intros [[<- <-]|[Hne Ht]]%lookup_insert_Some.
    - split; [by_compute|done].
    - apply lookup_singleton_Some in Ht as [<- <-]. split; [by_compute|done]. }
  assert ((let* ir0 := irm_new C46_schema in let* ir := foldM irm_do ir0 C46_calls in
           Ok (crp_assignments ∘ dom_crp <$> i_domains ir)) = Ok {[ "d" := {[ 1 := 0; 2 := 1 ]}; "c" := {[ 7 := 0 ]} ]}%Z) as H by by_compute.
  apply obind_Ok in H as (ir0 & H0 & H). apply obind_Ok in H as (ir & Hf & [= HA0]).
  assert (Forall irm_call_ok C46_calls) as Hok by (repeat (apply Forall_cons; split; [exact I|]); constructor).
  destruct (C12_entities_iff_observed C46_schema ir0 C46_calls ir HL H0 Hok Hf) as (_ & _ & _ & A & Hh).
  assert (exists dm, i_domains ir !! "d" = Some dm /\ crp_assignments (dom_crp dm) = {[ 1 := 0; 2 := 1 ]}%Z) as (dm & Hdm & Hcr).
  { assert ((crp_assignments ∘ dom_crp <$> i_domains ir) !! "d" = Some {[ 1 := 0; 2 := 1 ]}%Z) as Hd by by rewrite HA0, lookup_insert.
    rewrite lookup_fmap in Hd. destruct (i_domains ir !! "d") as [dm|]; [|done]. injection Hd as Hd. by exists dm. }
  pose proof (ih_world _ _ _ Hh "d") as Hw. rewrite Hdm in Hw. destruct (A !! "d") as [sa|] eqn:HAd; [|done].
  assert (sa = {[ 1 := 0; 2 := 1 ]}%Z) as -> by (destruct Hw as [_ Hds]; by rewrite <- (hs_assign _ _ Hds)).
  assert (seat A "d" 1 = Some 0%Z) as Hs1 by (unfold seat; by rewrite HAd).
  assert (seat A "d" 2 = Some 1%Z) as Hs2 by (unfold seat; by rewrite HAd).
  destruct (C46_candidates _ ir A some_orders "d" 1 [] Hh some_orders_ok) as (cur & tables & logps & r' & Hcur & Hlp & Hlen & _ & Hcin & Hall & _).
  { apply (in_domain_seat _ ir A "d" 1 Hh). by rewrite Hs1. }
  rewrite Hs1 in Hcur. injection Hcur as <-.
  apply elem_of_list_lookup in Hcin as [j Hj]. pose proof (Hall 2%Z 1%Z Hs2) as Htin. apply elem_of_list_lookup in Htin as [i Hi].
  destruct (lookup_lt_is_Some_2 logps i) as [x Hx]; [rewrite Hlen; by eapply lookup_lt_Some|].
  destruct (lookup_lt_is_Some_2 logps j) as [y Hy]; [rewrite Hlen; by eapply lookup_lt_Some|].
  destruct (irm_move_item_spec _ some_orders ir A "d" 1 1 0 [] Hh some_orders_ok Hs1) as (ir' & q & Hmv & _); [done|].
  exists ir0, ir, some_lgamma, 0%Z, 1%Z, i, j, tables, logps, ir, r', x, y, ir', q. split_and!; try done.
  - apply some_lgamma_ok.
  - exists dm. split; [done|]. by rewrite (dom_get_cluster_spec dm _ 1 Hw).
Qed.

(** * C47: removing a relation *)
Theorem C47_remove_relation {V} : forall ar (ir : irm V) A o name,
  irm_holds ar ir A -> orders_ok o -> is_Some (i_schema ir !! name) ->
  exists ir' A', irm_remove_relation o ir name = Ok ir' /\ irm_holds ar ir' A' /\
    i_rels ir' = delete name (i_rels ir) /\ i_schema ir' = delete name (i_schema ir) /\
    irm_data ir' = delete name (irm_data ir) /\
    (forall d, is_Some (i_domains ir' !! d) <-> exists n t, n <> name /\ i_schema ir !! n = Some t /\ d ∈ t_domains t) /\
    (forall d e, is_Some (i_domains ir' !! d) -> seat A' d e = seat A d e).
Proof.
  intros ar ir A o name Hh Ho [t Ht]. destruct (irm_rel_lookup ar ir A name t Hh Ht) as (a & Ha & _ & _).
  destruct (irm_remove_spec ar o ir A name a Hh Ho Ha) as (ir' & A' & Hr & Hh' & Hrels & Hs & Hdom & Hseat).
  assert (forall d, is_Some (i_domains ir' !! d) <-> d ∈ dom A') as HWA.
  { intros d. rewrite elem_of_dom. pose proof (ih_world _ _ _ Hh' d) as Hw.
    destruct (i_domains ir' !! d), (A' !! d); try done. split; by intros [? ?]. }
  exists ir', A'. split_and!; try done.
  - unfold irm_data. by rewrite Hrels, fmap_delete.
  - intros d. rewrite HWA, Hdom, Hrels. split.
    + intros (n & b & [Hne Hb]%lookup_delete_Some & Hd). destruct (irm_schema_lookup ar ir A n b Hh Hb) as (tn & Htn & _ & Htd).
      exists n, tn. rewrite Htd. split_and!; congruence.
    + intros (n & tn & Hne & Htn & Hd). destruct (irm_rel_lookup ar ir A n tn Hh Htn) as (b & Hb & _ & Htd).
      exists n, b. rewrite lookup_delete_ne by done. by rewrite <- Htd.
  - intros d e Hd. apply Hseat. by apply HWA.
Qed.
Print Assumptions C47_remove_relation.

(** But entities only the removed relation mentions stay in shared domains. *)
Definition C47_schema : gmap string (t_rel bool) :=
  {[ "r" := TClean ["d"] true tally_dist tt; "s" := TClean ["d"] true tally_dist tt ]}.
Theorem C47_remove_keeps_entities_refuted : exists ir0 ir ir',
  irm_new C47_schema = Ok ir0 /\ irm_do ir0 (IIncorporate "r" [1%Z] true []) = Ok ir /\
  irm_remove_relation some_orders ir "r" = Ok ir' /\
  in_domain ir' "d" 1 /\ irm_data ir' = {[ "s" := ∅ ]} /\ ~ data_mentions (i_schema ir') (irm_data ir') "d" 1.
Proof.
  assert ((let* ir0 := irm_new C47_schema in let* ir := irm_do ir0 (IIncorporate "r" [1%Z] true []) in
           let* ir' := irm_remove_relation some_orders ir "r" in Ok (irm_data ir', dom_items <$> i_domains ir'))
          = Ok ({[ "s" := ∅ ]}, {[ "d" := {[ 1%Z ]} ]})) as H by by_compute.
  apply obind_Ok in H as (ir0 & H0 & H). apply obind_Ok in H as (ir & H1 & H). apply obind_Ok in H as (ir' & H2 & [= Hd HW]).
  exists ir0, ir, ir'. split_and!; try done.
  - assert ((dom_items <$> i_domains ir') !! "d" = Some {[ 1%Z ]}) as Hdd by by rewrite HW, lookup_singleton.
    rewrite lookup_fmap in Hdd. destruct (i_domains ir' !! "d") as [dm|] eqn:E; [|done]. injection Hdd as Hdd.
    exists dm. split; [done|]. rewrite Hdd. set_solver.
  - rewrite Hd. intros (n & t & m & items & _ & Hm & [v Hi] & _). apply lookup_singleton_Some in Hm as [_ <-]. by rewrite lookup_empty in Hi.
Qed.
Print Assumptions C47_remove_keeps_entities_refuted.
