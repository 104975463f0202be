(** The IRM: every call keeps all fields in agreement and does what it should to
    the stored observations and the clustering. *)
From stdpp Require Import gmap strings.
From Coq Require Import ZArith Reals Lia Lra.
From Verif Require Import M_base M_math M_crp M_domain M_dist M_relation M_noisy M_irm
  S_crp S_crp_state S_relation S_irm
  P_base P_math P_crp P_crp_score P_domain P_relation P_relation_score P_relation_history P_any.

Section PIrm.
Context {V : Type}.
Implicit Types (ir : irm V) (a : any_rel V) (A : clustering) (ar : string -> option nat) (lk : string -> option (any_rel V)).

Definition shape_of (rels : gmap string (any_rel V)) := (fun a => any_type a true) <$> rels.

Lemma shape_lookup_type rels rels' name a' :
  shape_of rels' = shape_of rels -> rels' !! name = Some a' ->
  exists a, rels !! name = Some a /\ any_type a' true = any_type a true.
Proof.
  intros H Ha. assert (shape_of rels' !! name = shape_of rels !! name) as Hn by by rewrite H.
  unfold shape_of in Hn. rewrite !lookup_fmap, Ha in Hn. cbn [fmap option_fmap option_map] in Hn.
  destruct (rels !! name) as [a|]; [|done]. cbn [option_map] in Hn. apply (inj Some) in Hn. eauto.
Qed.
Lemma shape_lookup rels rels' name a' :
  shape_of rels' = shape_of rels -> rels' !! name = Some a' ->
  exists a, rels !! name = Some a /\ any_doms a' = any_doms a /\ any_base a' = any_base a.
Proof.
  intros H Ha. destruct (shape_lookup_type _ _ _ _ H Ha) as (a & Ha0 & Ht). exists a.
  split_and!; [done|by eapply any_type_doms|by eapply any_type_base].
Qed.

Lemma shape_insert rels name a a' :
  rels !! name = Some a -> any_type a' true = any_type a true ->
  shape_of (<[name := a']> rels) = shape_of rels.
Proof.
  intros Ha Ht. unfold shape_of. rewrite fmap_insert, Ht. apply insert_id.
  by rewrite lookup_fmap, Ha.
Qed.

Lemma irm_holds_update ar ir A W' rels' A' :
  irm_holds ar ir A -> world_holds W' A' -> dom A' = dom A ->
  shape_of rels' = shape_of (i_rels ir) ->
  (forall name a, rels' !! name = Some a -> any_holds ar A' a) ->
  irm_holds ar (Irm (i_schema ir) W' rels' (i_d2r ir) (i_b2n ir)) A'.
Proof.
  intros [Hw Hr Har Hs Hu Hd2] HW' Hdom Hsh Hr'.
  assert (forall d, (exists name a, rels' !! name = Some a /\ d ∈ any_doms a) <->
                    (exists name a, i_rels ir !! name = Some a /\ d ∈ any_doms a)) as Hu'.
  { intros d. split; intros (name & a & Ha & Hd).
    - destruct (shape_lookup _ _ _ _ Hsh Ha) as (a0 & Ha0 & Hd0 & _). exists name, a0. by rewrite <- Hd0.
    - destruct (shape_lookup _ _ _ _ (eq_sym Hsh) Ha) as (a0 & Ha0 & Hd0 & _). exists name, a0. by rewrite <- Hd0. }
  split; simpl; try done.
  - intros name a Ha. destruct (shape_lookup _ _ _ _ Hsh Ha) as (a0 & Ha0 & -> & _). eauto.
  - intros name. specialize (Hs name). destruct (i_schema ir !! name) as [t|].
    + destruct (i_rels ir !! name) as [a|] eqn:Ea; [|done].
      destruct (shape_lookup_type _ _ _ _ (eq_sym Hsh) Ea) as (a0 & Ha0 & Ht0). rewrite Ha0.
      rewrite Hs at 1. by eapply any_type_obs.
    + destruct (i_rels ir !! name) as [a|] eqn:Ea; [done|].
      destruct (rels' !! name) as [a'|] eqn:Ea'; [|done].
      destruct (shape_lookup _ _ _ _ Hsh Ea') as (a0 & Ha0 & _). congruence.
  - intros d. rewrite Hdom, Hu, Hu'. done.
  - intros d. specialize (Hd2 d). destruct (i_d2r ir !! d) as [s|]; [|by rewrite Hdom].
    rewrite Hdom. destruct Hd2 as [? Hd2]. split; [done|]. intros name. rewrite Hd2. split; intros (a & Ha & Hd).
    + destruct (shape_lookup _ _ _ _ (eq_sym Hsh) Ha) as (a0 & Ha0 & Hd0 & _). exists a0. by rewrite <- Hd0.
    + destruct (shape_lookup _ _ _ _ Hsh Ha) as (a0 & Ha0 & Hd0 & _). exists a0. by rewrite <- Hd0.
Qed.

(** What never changes except by adding and removing relations. *)
Definition same_frame ir ir' : Prop :=
  i_schema ir' = i_schema ir /\ i_d2r ir' = i_d2r ir /\ i_b2n ir' = i_b2n ir /\ irm_shape ir' = irm_shape ir.

Lemma same_frame_refl ir : same_frame ir ir.
Proof. done. Qed.
Lemma same_frame_trans ir1 ir2 ir3 : same_frame ir1 ir2 -> same_frame ir2 ir3 -> same_frame ir1 ir3.
Proof. unfold same_frame. intros (?&?&?&?) (?&?&?&?). split_and!; congruence. Qed.

(** Where the base pointers of the relations of an IRM lead. *)
Definition bases_found lk ir : Prop :=
  forall name a b, i_rels ir !! name = Some a -> any_base a = Some b -> is_Some (lk b).

(** * incorporate *)
Lemma irm_incorporate_spec ar lk ir A name items v r ir' r' :
  irm_holds ar ir A -> lookup_arity ar lk -> irm_incorporate lk ir name items v r = Ok (ir', r') ->
  exists A' a, irm_holds ar ir' A' /\ same_frame ir ir' /\
    i_rels ir !! name = Some a /\ any_data a !! items = None /\ length items = length (any_doms a) /\
    irm_data ir' = <[name := <[items := v]> (any_data a)]> (irm_data ir) /\
    dom A' = dom A /\ (forall d e t, seat A d e = Some t -> seat A' d e = Some t) /\
    (forall d e, is_Some (seat A' d e) <-> is_Some (seat A d e) \/ mentions (any_doms a) items d e).
Proof.
  intros Hh Hlk H. unfold irm_incorporate in H. apply obind_Ok in H as (a & Ha%at_Ok & H).
  apply obind_Ok in H as ([[W a'] r1] & H & [= <- <-]).
  destruct (any_incorporate_spec ar lk _ A a items v r W a' r1 (ih_world _ _ _ Hh) (ih_rels _ _ _ Hh name a Ha) Hlk H)
    as (A' & HW & Ha' & Hty & Hl & Hn & Hdata & Hdom & Hkeep & Hnew).
  pose proof (any_type_doms _ _ _ Hty) as Hd. exists A', a. split.
  { apply (irm_holds_update ar ir A W (<[name := a']> (i_rels ir)) A' Hh HW Hdom).
    - by eapply shape_insert.
    - intros name' b Hb'. destruct (decide (name' = name)) as [->|Hne].
      + rewrite lookup_insert in Hb'. by injection Hb' as <-.
      + rewrite lookup_insert_ne in Hb' by done. pose proof (ih_rels _ _ _ Hh name' b Hb') as Hb0.
        eapply any_holds_ext; [| |exact Hb0].
        * intros d Hd'. rewrite Hdom. by eapply any_holds_dom.
        * intros d e Hm. destruct (any_holds_mentions _ _ _ _ _ Hb0 Hm) as [t Ht]. rewrite Ht. by apply Hkeep. }
  split_and!; try done.
  - unfold same_frame, irm_shape. simpl. split_and!; try done. by eapply shape_insert.
  - unfold irm_data. simpl. by rewrite fmap_insert, Hdata.
  - intros d e. split; [apply Hnew|]. intros [[t Ht]|Hm]; [eauto|].
    eapply any_holds_mentions; [exact Ha'|]. exists items. rewrite Hdata, Hd, lookup_insert. eauto.
Qed.

Lemma irm_incorporate_tight ar lk ir A name items v r ir' r' A' :
  irm_holds ar ir A -> irm_tight ir A -> lookup_arity ar lk ->
  irm_incorporate lk ir name items v r = Ok (ir', r') ->
  (forall a, i_rels ir !! name = Some a ->
     forall d e, is_Some (seat A' d e) <-> is_Some (seat A d e) \/ mentions (any_doms a) items d e) ->
  irm_tight ir' A'.
Proof.
  intros Hh Ht Hlk H Hseat. unfold irm_incorporate in H. apply obind_Ok in H as (a & Ha%at_Ok & H).
  apply obind_Ok in H as ([[W a'] r1] & H & [= <- <-]).
  destruct (any_incorporate_spec ar lk _ A a items v r W a' r1 (ih_world _ _ _ Hh) (ih_rels _ _ _ Hh name a Ha) Hlk H)
    as (A1 & _ & _ & Hty & Hl & Hn & Hdata & _).
  pose proof (any_type_doms _ _ _ Hty) as Hd.
  intros d e. rewrite (Hseat a Ha), (Ht d e). simpl. split.
  - intros [(name1 & a1 & Ha1 & (k & Hk & Hm))|Hm].
    + destruct (decide (name1 = name)) as [->|Hne].
      * rewrite Ha in Ha1. injection Ha1 as <-. exists name, a'. rewrite lookup_insert. split; [done|].
        exists k. rewrite Hdata, Hd. split; [|done]. destruct (decide (k = items)) as [->|].
        -- rewrite lookup_insert. eauto.
        -- by rewrite lookup_insert_ne.
      * exists name1, a1. rewrite lookup_insert_ne by done. split; [done|]. by exists k.
    + exists name, a'. rewrite lookup_insert. split; [done|]. exists items. rewrite Hdata, Hd, lookup_insert. eauto.
  - intros (name1 & a1 & Ha1 & (k & Hk & Hm)). destruct (decide (name1 = name)) as [->|Hne].
    + rewrite lookup_insert in Ha1. injection Ha1 as <-. rewrite Hdata in Hk. rewrite Hd in Hm.
      destruct (decide (k = items)) as [->|Hki]; [by right|]. rewrite lookup_insert_ne in Hk by done.
      left. exists name, a. split; [done|]. by exists k.
    + rewrite lookup_insert_ne in Ha1 by done. left. exists name1, a1. split; [done|]. by exists k.
Qed.

(** * unincorporate *)
Definition mentioned (rels : gmap string (any_rel V)) (d : string) (e : Z) : Prop :=
  exists name a, rels !! name = Some a /\ any_mentions a d e.
Global Instance mentioned_dec rels d e : Decision (mentioned rels d e).
Proof.
  refine (cast_if (decide (map_Exists (fun _ a => observations_of (any_doms a) (any_data a) d e <> ∅) rels))).
  - abstract (destruct m as (name & a & Ha & Hm); exists name, a; split; [done|]; by apply elem_of_obs).
  - abstract (intros (name & a & Ha & Hm); apply n; exists name, a; split; [done|]; by apply elem_of_obs).
Defined.

Lemma mark_loop ar ir A (d : string) (e : Z) (names : list string) (m : gmap (string * Z) bool) (old : bool) :
  irm_holds ar ir A -> (forall name, name ∈ names -> exists a, i_rels ir !! name = Some a /\ d ∈ any_doms a) ->
  m !! (d, e) = Some old ->
  exists b, foldM (fun m name =>
      let* a := at_ (i_rels ir !! name) in
      let* b := any_has_observation a d e in
      let* old := at_ (A:=bool) (m !! (d, e)) in
      Ok (<[(d, e) := old || b]> m)) m names = Ok (<[(d, e) := b]> m) /\
    (b = true <-> old = true \/ exists name a, name ∈ names /\ i_rels ir !! name = Some a /\ any_mentions a d e).
Proof.
  intros Hh. revert m old. induction names as [|name names IH]; intros m old Hn Hm.
  { exists old. cbn [foldM]. rewrite insert_id by done. split; [done|]. split; [by left|].
    intros [?|(? & ? & Hi & _)]; [done|]. by apply elem_of_nil in Hi. }
  destruct (Hn name) as (a & Ha & Hd); [left|].
  destruct (any_has_observation_spec ar A a d e (ih_rels _ _ _ Hh name a Ha) Hd) as (b & Hb & Hbm).
  cbn [foldM]. rewrite Ha. cbn [at_ obind]. rewrite Hb. cbn [obind]. rewrite Hm. cbn [at_ obind].
  destruct (IH (<[(d, e) := old || b]> m) (old || b)) as (b' & -> & Hb').
  { intros n' Hn'. apply Hn. by right. }
  { by rewrite lookup_insert. }
  exists b'. rewrite insert_insert. split; [done|]. rewrite Hb', orb_true_iff. split.
  - intros [[?|Hbt]|(n' & a' & ? & ? & ?)]; [by left| |].
    + right. exists name, a. split; [left|]. split; [done|]. by apply Hbm.
    + right. exists n', a'. split; [by right|]. done.
  - intros [?|(n' & a' & [->|Hin]%elem_of_cons & Ha' & Hm')].
    + by left; left.
    + left; right. apply Hbm. rewrite Ha in Ha'. by injection Ha' as <-.
    + right. eauto.
Qed.

Lemma mark_present_spec ar (o : orders) ir A (m : gmap (string * Z) bool) (d : string) (e : Z) :
  irm_holds ar ir A -> orders_ok o -> d ∈ dom A -> m !! (d, e) = Some false \/ m !! (d, e) = Some (bool_decide (mentioned (i_rels ir) d e)) ->
  mark_present o ir m (d, e) = Ok (<[(d, e) := bool_decide (mentioned (i_rels ir) d e)]> m).
Proof.
  intros Hh (_ & _ & Ho & _) Hd Hm. unfold mark_present.
  pose proof (ih_d2r _ _ _ Hh d) as Hs. destruct (i_d2r ir !! d) as [s|]; [|done]. cbn [at_ obind].
  destruct Hs as [_ Hs].
  assert (exists old, m !! (d, e) = Some old /\ (old = true -> mentioned (i_rels ir) d e)) as (old & Hold & Holdt).
  { destruct Hm as [Hm|Hm]; (eexists; split; [exact Hm|]); [done|]. by rewrite bool_decide_eq_true. }
  destruct (mark_loop ar ir A d e (o_names o s) m old Hh) as (b & -> & Hb).
  { intros name Hn. rewrite Ho, elem_of_elements in Hn. by apply Hs. }
  { done. }
  do 2 f_equal. apply eq_true_iff_eq. rewrite bool_decide_eq_true, Hb. split.
  - intros [?|(name & a & _ & Ha & Hma)]; [auto|]. by exists name, a.
  - intros (name & a & Ha & Hma). right. exists name, a. split; [|done].
    rewrite Ho, elem_of_elements. apply Hs. exists a. split; [done|]. by eapply any_mentions_doms.
Qed.

Lemma mark_all_spec ar (o : orders) ir A (pairs : list (string * Z)) (m : gmap (string * Z) bool) :
  irm_holds ar ir A -> orders_ok o -> (forall d e, (d, e) ∈ pairs -> d ∈ dom A) ->
  (forall de, de ∈ pairs -> m !! de = Some false \/ m !! de = Some (bool_decide (mentioned (i_rels ir) de.1 de.2))) ->
  exists m', foldM (mark_present o ir) m pairs = Ok m' /\
    (forall de, de ∈ pairs -> m' !! de = Some (bool_decide (mentioned (i_rels ir) de.1 de.2))) /\
    (forall de, de ∉ pairs -> m' !! de = m !! de).
Proof.
  intros Hh Ho. revert m. induction pairs as [|[d e] pairs IH]; intros m Hd Hm.
  { exists m. split; [done|]. split; [|done]. intros de Hin. by apply elem_of_nil in Hin. }
  cbn [foldM]. rewrite (mark_present_spec ar o ir A m d e Hh Ho (Hd d e (ltac:(left))) (Hm (d, e) (ltac:(left)))).
  cbn [obind].
  destruct (IH (<[(d, e) := bool_decide (mentioned (i_rels ir) d e)]> m)) as (m' & -> & Hin & Hout).
  { intros d' e' Hin. eapply Hd. by right. }
  { intros de Hin. destruct (decide (de = (d, e))) as [->|Hne].
    - rewrite lookup_insert. by right.
    - rewrite lookup_insert_ne by done. apply Hm. by right. }
  exists m'. split; [done|]. split.
  - intros de Hde. destruct (decide (de ∈ pairs)) as [Hi|Hi]; [by apply Hin|].
    apply elem_of_cons in Hde as [->|]; [|done]. rewrite Hout by done. by rewrite lookup_insert.
  - intros de Hde. apply not_elem_of_cons in Hde as [Hne Hde]. rewrite Hout by done. by rewrite lookup_insert_ne.
Qed.

Definition clustering_drop A (d : string) (e : Z) : clustering := alter (delete e) d A.
Lemma seat_drop A d e d' e' :
  seat (clustering_drop A d e) d' e' = if decide (d' = d /\ e' = e) then None else seat A d' e'.
Proof.
  unfold seat, clustering_drop. destruct (decide (d' = d)) as [->|Hd].
  - rewrite lookup_alter. destruct (decide (e' = e)) as [->|He].
    + rewrite decide_True by done. destruct (A !! d); simpl; [apply lookup_delete|done].
    + rewrite decide_False by naive_solver. destruct (A !! d); simpl; [by apply lookup_delete_ne|done].
  - rewrite lookup_alter_ne by done. rewrite decide_False by naive_solver. done.
Qed.
Lemma dom_clustering_drop A d e : dom (clustering_drop A d e) = dom A.
Proof. apply set_eq. intros x. unfold clustering_drop. by rewrite dom_alter_L. Qed.

Lemma world_drop W A d e :
  world_holds W A -> is_Some (seat A d e) ->
  exists dm dm', deref W d = Ok dm /\ dom_unincorporate dm e = Ok dm' /\
    world_holds (<[d := dm']> W) (clustering_drop A d e).
Proof.
  intros HW [t Ht]. destruct (world_holds_lookup W A d e t HW Ht) as (dm & a & HWd & HAd & Hd & Ha).
  destruct (dom_unincorporate_spec dm a e Hd) as (dm' & Hu & Hd' & _); [eauto|].
  exists dm, dm'. unfold deref. rewrite HWd. split_and!; [done|done|].
  assert (clustering_drop A d e = <[d := delete e a]> A) as ->; [|by apply world_holds_insert].
  unfold clustering_drop. apply map_eq. intros d'. destruct (decide (d' = d)) as [->|].
  - by rewrite lookup_alter, lookup_insert, HAd.
  - by rewrite lookup_alter_ne, lookup_insert_ne.
Qed.

Lemma drop_all_spec (W : world) A (m : gmap (string * Z) bool) (pairs : list (string * Z)) :
  world_holds W A ->
  (forall d e, (d, e) ∈ pairs -> m !! (d, e) = Some true \/ m !! (d, e) = Some false /\ is_Some (seat A d e)) ->
  exists W' m' A', foldM drop_absent (W, m) pairs = Ok (W', m') /\ world_holds W' A' /\ dom A' = dom A /\
    forall d e, seat A' d e = if decide ((d, e) ∈ pairs /\ m !! (d, e) = Some false) then None else seat A d e.
Proof.
  revert W A m. induction pairs as [|[d e] pairs IH]; intros W A m HW Hm.
  { exists W, m, A. split_and!; done. }
  cbn [foldM]. unfold drop_absent at 1. destruct (Hm d e (elem_of_list_here _ _)) as [Ht|[Hf Hs]].
  - rewrite Ht. cbn [at_ obind]. destruct (IH W A m HW) as (W' & m' & A' & Hf & HW' & Hdom & Hseat).
    { intros. apply Hm. by right. }
    exists W', m', A'. split_and!; try done. intros d' e'. rewrite Hseat.
    destruct (decide ((d', e') ∈ pairs /\ _)) as [[? ?]|Hn].
    + rewrite decide_True; [done|]. split; [by right|done].
    + rewrite decide_False; [done|]. intros [[Heq|?]%elem_of_cons ?]; [congruence|naive_solver].
  - rewrite Hf. cbn [at_ obind]. destruct (world_drop W A d e HW Hs) as (dm & dm' & -> & Hu & HW').
    cbn [obind]. rewrite Hu. cbn [obind].
    destruct (IH _ _ (<[(d, e) := true]> m) HW') as (W' & m' & A' & Hff & HW'' & Hdom & Hseat).
    { intros d' e' Hin. destruct (decide ((d', e') = (d, e))) as [[= -> ->]|Hne].
      - rewrite lookup_insert. by left.
      - rewrite lookup_insert_ne by congruence. rewrite seat_drop, decide_False by naive_solver. apply Hm. by right. }
    exists W', m', A'. split_and!; try done; [by rewrite Hdom, dom_clustering_drop|].
    intros d' e'. rewrite Hseat, seat_drop. destruct (decide ((d', e') = (d, e))) as [[= -> ->]|Hne].
    + rewrite (decide_True (P := (d, e) ∈ (d, e) :: pairs /\ _)) by (split; [left|done]).
      rewrite (decide_True (P := d = d /\ e = e)) by done. by destruct (decide _).
    + rewrite lookup_insert_ne by congruence. rewrite (decide_False (P := d' = d /\ _)) by naive_solver.
      apply decide_ext. rewrite elem_of_cons. naive_solver.
Qed.

Lemma irm_unincorporate_spec ar lk o ir A name items a :
  irm_holds ar ir A -> lookup_arity ar lk -> orders_ok o ->
  i_rels ir !! name = Some a -> is_Some (any_data a !! items) -> (forall b, any_base a = Some b -> is_Some (lk b)) ->
  exists ir' A', irm_unincorporate lk o ir name items = Ok ir' /\ irm_holds ar ir' A' /\ same_frame ir ir' /\
    irm_data ir' = <[name := delete items (any_data a)]> (irm_data ir) /\
    dom A' = dom A /\
    (forall d e, seat A' d e = if decide (mentions (any_doms a) items d e /\ ~ mentioned (i_rels ir') d e)
                               then None else seat A d e).
Proof.
  intros Hh Hlk Ho Ha Hi Hb. pose proof (ih_rels _ _ _ Hh name a Ha) as Hah.
  pose proof (any_holds_length ar A a items Hah Hi) as Hlen.
  destruct (any_unincorporate_spec ar lk _ A a items (ih_world _ _ _ Hh) Hah Hlk Hb Hi)
    as (a' & Hun & Ha' & Hty & Hdata).
  pose proof (any_type_doms _ _ _ Hty) as Hd.
  unfold irm_unincorporate. rewrite Ha. cbn [at_ obind]. rewrite Hun. cbn [obind i_set_rel i_schema].
  pose proof (ih_schema _ _ _ Hh name) as Hs. rewrite Ha in Hs.
  destruct (i_schema ir !! name) as [t|]; [|done]. cbn [at_ obind].
  assert (t_domains t = any_doms a) as -> by (rewrite Hs; by destruct a).
  rewrite bool_decide_eq_true_2 by lia.
  set (ir1 := i_set_rel ir name a').
  assert (shape_of (i_rels ir1) = shape_of (i_rels ir)) as Hsh by by eapply shape_insert.
  assert (irm_holds ar ir1 A) as Hh1.
  { apply (irm_holds_update ar ir A (i_domains ir) (i_rels ir1) A Hh (ih_world _ _ _ Hh) eq_refl Hsh).
    intros name' b Hbb. unfold ir1 in Hbb. simpl in Hbb. destruct (decide (name' = name)) as [->|Hne].
    - rewrite lookup_insert in Hbb. by injection Hbb as <-.
    - rewrite lookup_insert_ne in Hbb by done. by eapply ih_rels. }
  assert (forall d e, (d, e) ∈ zip (any_doms a) items -> is_Some (seat A d e)) as Hseated.
  { intros d e Hin. eapply any_holds_mentions; [exact Hah|]. exists items. done. }
  match goal with |- context [foldM (mark_present o ir1) ?mm ?ps] => set (m0 := mm) end.
  assert (forall de, de ∈ zip (any_doms a) items -> m0 !! de = Some false) as Hm0.
  { unfold m0. clear. induction (zip (any_doms a) items) as [|p ps IH]; intros de Hde; [by apply elem_of_nil in Hde|].
    simpl. destruct (decide (de = p)) as [->|Hne].
    - by rewrite lookup_insert.
    - rewrite lookup_insert_ne by done. apply IH. by apply elem_of_cons in Hde as [->|]. }
  destruct (mark_all_spec ar o ir1 A (zip (any_doms a) items) m0 Hh1 Ho) as (m & Hmark & Hmin & _).
  { intros d e Hin. destruct (Hseated d e Hin). by eapply seat_dom. }
  { intros de Hde. left. by apply Hm0. }
  rewrite Hmark. cbn [obind].
  destruct (drop_all_spec (i_domains ir1) A m (zip (any_doms a) items) (ih_world _ _ _ Hh)) as (W' & m' & A' & Hdrop & HW' & Hdom & Hseat).
  { intros d e Hin. rewrite (Hmin _ Hin). simpl. case_bool_decide; [by left|]. right. split; [done|]. by apply Hseated. }
  rewrite Hdrop. cbn [obind].
  assert (forall d e, seat A' d e = if decide (mentions (any_doms a) items d e /\ ~ mentioned (i_rels ir1) d e)
                               then None else seat A d e) as Hseat'.
  { intros d e. rewrite Hseat. apply decide_ext. unfold mentions. split; intros [Hin Hx]; (split; [done|]).
    - rewrite (Hmin _ Hin) in Hx. simpl in Hx. injection Hx as Hx. by apply bool_decide_eq_false in Hx.
    - rewrite (Hmin _ Hin). simpl. by rewrite bool_decide_eq_false_2. }
  exists (i_set_domains ir1 W'), A'. split; [done|]. split.
  { apply (irm_holds_update ar ir A W' (i_rels ir1) A' Hh HW' Hdom Hsh).
    intros name' b Hbb. pose proof (ih_rels _ _ _ Hh1 name' b Hbb) as Hb0. eapply any_holds_ext; [| |exact Hb0].
    - intros d Hd'. rewrite Hdom. by eapply any_holds_dom.
    - intros d e Hm. rewrite Hseat', decide_False; [done|]. intros [_ Hn]. apply Hn. by exists name', b. }
  split_and!; try done.
  unfold irm_data. simpl. by rewrite fmap_insert, Hdata.
Qed.

Lemma irm_unincorporate_inv lk o ir name items ir' :
  irm_unincorporate lk o ir name items = Ok ir' ->
  exists a, i_rels ir !! name = Some a /\ is_Some (any_data a !! items) /\ forall b, any_base a = Some b -> is_Some (lk b).
Proof.
  intros H. unfold irm_unincorporate in H. apply obind_Ok in H as (a & Ha%at_Ok & H).
  apply obind_Ok in H as (a' & Hu & _). apply any_unincorporate_inv in Hu as [? ?]. eauto.
Qed.

(** Tightness after removing an observation. *)
Lemma irm_unincorporate_tight ir ir' A A' name items a :
  irm_tight ir A -> i_rels ir !! name = Some a ->
  irm_shape ir' = irm_shape ir -> irm_data ir' = <[name := delete items (any_data a)]> (irm_data ir) ->
  (forall d e, seat A' d e = if decide (mentions (any_doms a) items d e /\ ~ mentioned (i_rels ir') d e)
                             then None else seat A d e) ->
  (forall d e, mentions (any_doms a) items d e -> is_Some (seat A d e)) ->
  irm_tight ir' A'.
Proof.
  intros Ht Ha Hsh Hdata Hseat Hsome d e.
  assert (forall name' a', i_rels ir' !! name' = Some a' -> exists a0, i_rels ir !! name' = Some a0 /\
            any_doms a' = any_doms a0 /\
            any_data a' = if decide (name' = name) then delete items (any_data a) else any_data a0) as Hlook.
  { intros name' a' Ha'. destruct (shape_lookup _ _ _ _ Hsh Ha') as (a0 & Ha0 & Hd0 & _).
    exists a0. split_and!; [done|done|].
    assert (irm_data ir' !! name' = (<[name := delete items (any_data a)]> (irm_data ir)) !! name') as Hn by by rewrite Hdata.
    unfold irm_data in Hn. rewrite lookup_fmap, Ha' in Hn. simpl in Hn. destruct (decide (name' = name)) as [->|].
    - rewrite lookup_insert in Hn. by injection Hn.
    - rewrite lookup_insert_ne, lookup_fmap, Ha0 in Hn by done. by injection Hn. }
  assert (forall name' a0, i_rels ir !! name' = Some a0 -> exists a', i_rels ir' !! name' = Some a') as Hback.
  { intros name' a0 Ha0. destruct (shape_lookup _ _ _ _ (eq_sym Hsh) Ha0) as (a1 & Ha1 & _). eauto. }
  rewrite Hseat. change (exists n b, i_rels ir' !! n = Some b /\ any_mentions b d e) with (mentioned (i_rels ir') d e).
  destruct (decide _) as [[Hm Hn]|Hn].
  { split; [by intros [? ?]|done]. }
  rewrite (Ht d e). split.
  - intros (name1 & a1 & Ha1 & (k & Hk & Hkm)).
    destruct (decide (mentioned (i_rels ir') d e)) as [?|Hnm]; [done|]. exfalso. apply Hnm.
    destruct (Hback _ _ Ha1) as [a1' Ha1']. destruct (Hlook _ _ Ha1') as (a0 & Ha0 & Hd0 & Hdt).
    rewrite Ha1 in Ha0. injection Ha0 as <-. exists name1, a1'. split; [done|]. exists k. rewrite Hdt, Hd0.
    destruct (decide (name1 = name)) as [->|]; [|done]. rewrite Ha in Ha1. injection Ha1 as <-.
    split; [|done]. destruct (decide (k = items)) as [->|].
    + exfalso. apply Hn. done.
    + by rewrite lookup_delete_ne.
  - intros (name1 & a1 & Ha1 & (k & Hk & Hkm)). destruct (Hlook _ _ Ha1) as (a0 & Ha0 & Hd0 & Hdt).
    exists name1, a0. split; [done|]. exists k. rewrite Hdt in Hk. rewrite Hd0 in Hkm. split; [|done].
    destruct (decide (name1 = name)) as [->|]; [|done]. rewrite Ha in Ha0. injection Ha0 as <-.
    destruct (decide (k = items)) as [->|].
    + rewrite lookup_delete in Hk. by destruct Hk.
    + by rewrite lookup_delete_ne in Hk.
Qed.

(** * Cluster transitions *)
Lemma i_set_rel_id ir name a : i_rels ir !! name = Some a -> i_set_rel ir name a = ir.
Proof. intros H. unfold i_set_rel. rewrite insert_id by done. by destruct ir. Qed.

Lemma accumulate_spec ar o ir A d e ts names logps r :
  irm_holds ar ir A -> orders_ok o -> length logps = length ts ->
  (forall name, name ∈ names -> exists a, i_rels ir !! name = Some a /\ d ∈ any_doms a) ->
  exists logps' r', foldM (accumulate_logps o d e ts) (ir, logps, r) names = Ok (ir, logps', r') /\
    length logps' = length ts.
Proof.
  intros Hh Ho. revert logps r. induction names as [|name names IH]; intros logps r Hl Hn.
  { exists logps, r. done. }
  destruct (Hn name) as (a & Ha & Hd); [left|].
  destruct (any_has_observation_spec ar A a d e (ih_rels _ _ _ Hh name a Ha) Hd) as (b & Hb & Hbm).
  cbn [foldM]. unfold accumulate_logps at 1. rewrite Ha. cbn [at_ obind]. rewrite Hb. cbn [obind].
  assert (forall n, n ∈ names -> exists a, i_rels ir !! n = Some a /\ d ∈ any_doms a) as Hn'
    by (intros; apply Hn; by right).
  destruct b; [|by apply IH].
  destruct (any_gibbs_pure ar o (i_domains ir) A a d e ts r (ih_world _ _ _ Hh) (ih_rels _ _ _ Hh name a Ha) Ho) as (lps & r1 & -> & Hll).
  { by apply Hbm. }
  cbn [obind]. rewrite bool_decide_eq_true_2 by done. cbn [assert_ obind]. rewrite (i_set_rel_id ir name a Ha).
  apply IH; [|done]. unfold add_lists. rewrite zip_with_length. lia.
Qed.

Lemma set_cluster_loop ar o schema W d2r b2n A d e t cur names rels r :
  world_holds W A -> orders_ok o -> seat A d e = Some cur -> t <> cur -> NoDup names ->
  (forall name a, rels !! name = Some a -> name ∈ names -> any_holds ar A a /\ d ∈ any_doms a) ->
  (forall name, name ∈ names -> is_Some (rels !! name)) ->
  exists rels' r', foldM (set_cluster_r o d e t) (Irm schema W rels d2r b2n, r) names = Ok (Irm schema W rels' d2r b2n, r') /\
    shape_of rels' = shape_of rels /\ any_data <$> rels' = any_data <$> rels /\
    (forall name, name ∉ names -> rels' !! name = rels !! name) /\
    (forall name a, name ∈ names -> rels' !! name = Some a -> any_holds ar (clustering_move A d e t) a).
Proof.
  intros HW Ho Hcur Hne. revert rels r. induction names as [|name names IH]; intros rels r Hnd Hh Hs.
  { exists rels, r. split_and!; try done. intros name a Hin. by apply elem_of_nil in Hin. }
  apply NoDup_cons in Hnd as [Hni Hnd]. destruct (Hs name) as [a Ha]; [left|].
  destruct (Hh name a Ha) as [Hah Hd]; [left|].
  destruct (any_has_observation_spec ar A a d e Hah Hd) as (b & Hb & Hbm).
  assert (exists a' r1, set_cluster_r o d e t (Irm schema W rels d2r b2n, r) name =
            Ok (Irm schema W (<[name := a']> rels) d2r b2n, r1) /\ any_holds ar (clustering_move A d e t) a' /\
            any_type a' true = any_type a true /\ any_data a' = any_data a)
    as (a' & r1 & Hstep & Ha' & Hty' & Hdt').
  { unfold set_cluster_r. cbn [i_rels]. rewrite Ha. cbn [at_ obind]. rewrite Hb. cbn [obind]. destruct b.
    - destruct (any_set_cluster_spec ar o W A a d e t cur r HW Hah Ho) as (a' & r' & Hsc & Hrest); [by apply Hbm|done|done|].
      cbn [i_domains]. rewrite Hsc. cbn [obind]. eauto.
    - exists a, r. rewrite insert_id by done. split; [done|]. split_and!; try done.
      eapply any_holds_ext; [| |exact Hah].
      + intros d' Hd'. rewrite dom_clustering_move. by eapply any_holds_dom.
      + intros d' e' Hm. rewrite seat_move, decide_False; [done|]. intros (-> & -> & _).
        apply Hbm in Hm. done. }
  cbn [foldM]. rewrite Hstep. cbn [obind].
  destruct (IH (<[name := a']> rels) r1 Hnd) as (rels' & r' & -> & Hsh & Hdt & Hout & Hin).
  { intros n' b' Hb'' Hn'. assert (n' <> name) by (intros ->; done).
    rewrite lookup_insert_ne in Hb'' by done. apply (Hh n'); [done|by right]. }
  { intros n' Hn'. assert (n' <> name) by (intros ->; done). rewrite lookup_insert_ne by done. apply Hs. by right. }
  exists rels', r'. split; [done|]. split_and!.
  - rewrite Hsh. by eapply shape_insert.
  - rewrite Hdt, fmap_insert, Hdt'. apply insert_id. by rewrite lookup_fmap, Ha.
  - intros n' Hn'. apply not_elem_of_cons in Hn' as [? ?]. rewrite Hout by done. by rewrite lookup_insert_ne.
  - intros n' b' [->|Hn']%elem_of_cons Hb''.
    + rewrite Hout in Hb'' by done. rewrite lookup_insert in Hb''. by injection Hb'' as <-.
    + by eapply Hin.
Qed.

(** Moving one entity. *)
Lemma irm_move_item_spec ar o ir A d e t cur r :
  irm_holds ar ir A -> orders_ok o -> seat A d e = Some cur -> t <> cur ->
  exists ir' r', irm_move_item o ir d e t r = Ok (ir', r') /\ irm_holds ar ir' (clustering_move A d e t) /\ same_frame ir ir' /\
    irm_data ir' = irm_data ir.
Proof.
  intros Hh Ho Hcur Htc.
  destruct (world_holds_lookup _ A d e cur (ih_world _ _ _ Hh) Hcur) as (dm & sa & HWd & HAd & Hdm & Hsa).
  destruct Hdm as [Hdi Hds].
  unfold irm_move_item. pose proof (ih_d2r _ _ _ Hh d) as Hd2. destruct (i_d2r ir !! d) as [s|] eqn:Es; [|exfalso; apply Hd2; by eapply seat_dom].
  cbn [at_ obind]. destruct Hd2 as [HdA Hs]. destruct Ho as (Hov & Hog & Hon & Hoe) eqn:Eo. clear Eo.
  assert (orders_ok o) as Ho' by done.
  destruct (set_cluster_loop ar o (i_schema ir) (i_domains ir) (i_d2r ir) (i_b2n ir) A d e t cur (o_names o s) (i_rels ir) r)
    as (rels' & r3 & Hloop & Hsh & Hdt & Hout & Hin); try done.
  { apply Hh. }
  { rewrite Hon. apply NoDup_elements. }
  { intros name a Ha Hn. rewrite Hon, elem_of_elements in Hn. apply Hs in Hn as (a0 & Ha0 & Hd0).
    rewrite Ha in Ha0. injection Ha0 as <-. split; [|done]. by eapply ih_rels. }
  { intros name Hn. rewrite Hon, elem_of_elements in Hn. apply Hs in Hn as (a0 & Ha0 & Hd0). eauto. }
  assert (Irm (i_schema ir) (i_domains ir) (i_rels ir) (i_d2r ir) (i_b2n ir) = ir) as Heta by by destruct ir.
  rewrite Heta in Hloop. rewrite Hloop. cbn [obind i_domains].
  unfold deref. rewrite HWd. cbn [idx_ obind].
  destruct (dom_set_cluster_spec dm sa e cur t (conj Hdi Hds) Hsa) as (dm' & Hset & Hdm' & _); [congruence|].
  rewrite Hset. cbn [obind]. eexists _, r3. split; [done|].
  assert (world_holds (<[d := dm']> (i_domains ir)) (clustering_move A d e t)) as HW'.
  { eapply world_holds_set_cluster; [apply Hh| |exact Hset]. unfold deref. by rewrite HWd. }
  split.
  { apply (irm_holds_update ar ir A _ rels' _ Hh HW').
    - apply dom_clustering_move.
    - done.
    - intros name b Hb. destruct (decide (name ∈ o_names o s)) as [Hi'|Hi']; [by eapply Hin|].
      rewrite Hout in Hb by done. pose proof (ih_rels _ _ _ Hh name b Hb) as Hb0. eapply any_holds_ext; [| |exact Hb0].
      + intros d' Hd'. rewrite dom_clustering_move. by eapply any_holds_dom.
      + intros d' e' Hm. rewrite seat_move, decide_False; [done|]. intros (-> & -> & _). apply Hi'.
        rewrite Hon, elem_of_elements. apply Hs. exists b. split; [done|]. by eapply any_mentions_doms. }
  split_and!; done.
Qed.

(** Scoring the candidates: they are the tables with a Gibbs weight, and scoring
    changes nothing. *)
Lemma irm_item_logps_spec ar o ir A d e cur r :
  irm_holds ar ir A -> orders_ok o -> seat A d e = Some cur ->
  exists dm sa w tables logps r', irm_item_logps o ir d e r = Ok (tables, logps, ir, r') /\
    i_domains ir !! d = Some dm /\ A !! d = Some sa /\ sa !! e = Some cur /\
    crp_tables_weights_gibbs (dom_crp dm) cur = Ok w /\ tables = sorted_keys w /\ tables <> [] /\
    length logps = length tables.
Proof.
  intros Hh Ho Hcur.
  destruct (world_holds_lookup _ A d e cur (ih_world _ _ _ Hh) Hcur) as (dm & sa & HWd & HAd & Hdm & Hsa).
  unfold irm_item_logps. rewrite HWd. cbn [at_ obind].
  pose proof (dom_get_cluster_spec dm sa e Hdm) as Hgc. rewrite Hsa in Hgc.
  unfold dom_tables_weights_gibbs. rewrite Hgc. cbn [obind].
  destruct Hdm as [Hdi Hds]. destruct (gibbs_weights (dom_crp dm) sa e cur Hds Hsa) as (w & tnew & Ew & Hnew & _ & Hw & _).
  rewrite Ew. cbn [obind]. pose proof (ih_d2r _ _ _ Hh d) as Hd2. destruct (i_d2r ir !! d) as [s|] eqn:Es; [|exfalso; apply Hd2; by eapply seat_dom].
  cbn [at_ obind]. destruct Hd2 as [HdA Hs]. destruct Ho as (Hov & Hog & Hon & Hoe) eqn:Eo. clear Eo.
  assert (orders_ok o) as Ho' by done.
  destruct (accumulate_spec ar o ir A d e (sorted_keys w) (o_names o s)
    ((fun t => ln (default 0%R (w !! t))) <$> sorted_keys w) r Hh Ho') as (logps & r1 & -> & Hlen).
  { by rewrite fmap_length. }
  { intros name Hn. rewrite Hon, elem_of_elements in Hn. by apply Hs. }
  cbn [obind].
  assert (sorted_keys w <> []) as Hne.
  { intros He. assert (tnew ∈ sorted_keys w) as Hin.
    { apply elem_of_sorted_keys. rewrite Hw, decide_True, decide_True by done. eauto. }
    rewrite He in Hin. by apply elem_of_nil in Hin. }
  exists dm, sa, w, (sorted_keys w), logps, r1. done.
Qed.

(** One cluster transition: the entity stays or moves to one of the candidate
    clusters; nothing else changes. *)
Lemma irm_transition_item_spec ar o ir A d e r :
  irm_holds ar ir A -> orders_ok o -> is_Some (seat A d e) ->
  exists ir' r' A', irm_transition_item o ir d e r = Ok (ir', r') /\ irm_holds ar ir' A' /\ same_frame ir ir' /\
    irm_data ir' = irm_data ir /\
    (A' = A \/ exists t, A' = clustering_move A d e t).
Proof.
  intros Hh Ho [cur Hcur]. unfold irm_transition_item.
  destruct (irm_item_logps_spec ar o ir A d e cur r Hh Ho Hcur)
    as (dm & sa & w & tables & logps & r1 & -> & HWd & HAd & Hsa & Hw & -> & Hne & Hlen). cbn [obind].
  destruct (log_choice_spec (Some <$> logps) r1) as (i & r2 & -> & Hi).
  { destruct logps as [|x xs]; [destruct (sorted_keys w); done|]. exists x. left. }
  rewrite fmap_length, Hlen in Hi. cbn [obind].
  destruct (lookup_lt_is_Some_2 _ _ Hi) as [t Ht]. rewrite Ht. unfold deref. rewrite HWd. cbn [idx_ obind].
  pose proof (ih_world _ _ _ Hh d) as Hdm. rewrite HWd, HAd in Hdm.
  pose proof (dom_get_cluster_spec dm sa e Hdm) as Hgc. rewrite Hsa in Hgc. rewrite Hgc. cbn [obind].
  case_bool_decide as Htc.
  { exists ir, r2, A. split_and!; auto. apply same_frame_refl. }
  destruct (irm_move_item_spec ar o ir A d e t cur r2 Hh Ho Hcur Htc) as (ir' & r3 & -> & ? & ? & ?).
  exists ir', r3, (clustering_move A d e t). split_and!; eauto.
Qed.

Lemma irm_transition_item_inv ar o ir A d e r st :
  irm_holds ar ir A -> irm_transition_item o ir d e r = Ok st -> is_Some (seat A d e).
Proof.
  intros Hh H. unfold irm_transition_item in H. apply obind_Ok in H as (? & H & _).
  unfold irm_item_logps in H. apply obind_Ok in H as (dm & Hdm%at_Ok & H).
  apply obind_Ok in H as (w & Hw & _). unfold dom_tables_weights_gibbs in Hw.
  apply obind_Ok in Hw as (t & Ht & _). exists t. eapply world_get_cluster_inv; [apply Hh| |exact Ht].
  unfold deref. by rewrite Hdm.
Qed.

Lemma same_entities_move A d e t : is_Some (seat A d e) -> same_entities A (clustering_move A d e t).
Proof.
  intros [c Hc]. split; [apply dom_clustering_move|]. intros d' e'. rewrite seat_move.
  destruct (decide _) as [(-> & -> & _)|]; [|done]. split; eauto.
Qed.
Lemma same_entities_refl A : same_entities A A.
Proof. done. Qed.
Lemma same_entities_trans A1 A2 A3 : same_entities A1 A2 -> same_entities A2 A3 -> same_entities A1 A3.
Proof. intros [Hd1 H1] [Hd2 H2]. split; [congruence|]. intros d e. by rewrite H2, H1. Qed.

Lemma irm_tight_same ir ir' A A' :
  irm_shape ir' = irm_shape ir -> irm_data ir' = irm_data ir -> same_entities A A' -> irm_tight ir A -> irm_tight ir' A'.
Proof.
  intros Hsh Hdt [_ Hs] Ht d e. rewrite Hs, (Ht d e). unfold any_mentions.
  assert (forall i1 i2 name a, irm_shape i2 = irm_shape i1 -> irm_data i2 = irm_data i1 -> i_rels i1 !! name = Some a ->
            exists a', i_rels i2 !! name = Some a' /\ any_doms a' = any_doms a /\ any_data a' = any_data a) as Hl.
  { intros i1 i2 name a H1 H2 Ha. destruct (shape_lookup _ _ _ _ (eq_sym H1) Ha) as (a' & Ha' & Hd & _).
    exists a'. split_and!; [done|done|]. assert (irm_data i2 !! name = irm_data i1 !! name) as Hn by by rewrite H2.
    unfold irm_data in Hn. rewrite !lookup_fmap, Ha, Ha' in Hn. by injection Hn. }
  split; intros (name & a & Ha & (k & Hk & Hm)).
  - destruct (Hl ir ir' name a Hsh Hdt Ha) as (a' & Ha' & Hd & Hdd). exists name, a'. split; [done|].
    exists k. by rewrite Hd, Hdd.
  - destruct (Hl ir' ir name a (eq_sym Hsh) (eq_sym Hdt) Ha) as (a' & Ha' & Hd & Hdd). exists name, a'. split; [done|].
    exists k. by rewrite Hd, Hdd.
Qed.

(** What inference preserves. *)
Definition inferred ir A ir' A' : Prop :=
  same_frame ir ir' /\ irm_data ir' = irm_data ir /\ same_entities A A'.
Lemma inferred_refl ir A : inferred ir A ir A.
Proof. split_and!; done. Qed.
Lemma inferred_trans ir1 A1 ir2 A2 ir3 A3 : inferred ir1 A1 ir2 A2 -> inferred ir2 A2 ir3 A3 -> inferred ir1 A1 ir3 A3.
Proof.
  intros (?&?&?) (?&?&?). split_and!; [by eapply same_frame_trans|congruence|by eapply same_entities_trans].
Qed.

Lemma transition_ents_spec ar o d es ir A r :
  irm_holds ar ir A -> orders_ok o -> (forall e, e ∈ es -> is_Some (seat A d e)) ->
  exists ir' r' A', foldM (fun '(ir, r) e => irm_transition_item o ir d e r) (ir, r) es = Ok (ir', r') /\
    irm_holds ar ir' A' /\ inferred ir A ir' A' /\ (forall d' e', d' <> d -> seat A' d' e' = seat A d' e').
Proof.
  intros Hh Ho. revert ir A r Hh. induction es as [|e es IH]; intros ir A r Hh Hs.
  { exists ir, r, A. split_and!; try done. }
  destruct (irm_transition_item_spec ar o ir A d e r Hh Ho) as (ir1 & r1 & A1 & Hst & Hh1 & Hf1 & Hd1 & HA1).
  { apply Hs. left. }
  assert (same_entities A A1 /\ forall d' e', d' <> d -> seat A1 d' e' = seat A d' e') as [Hse Hoth].
  { destruct HA1 as [->|[t ->]]; [by split|]. split.
    - apply same_entities_move. apply Hs. left.
    - intros d' e' Hne. rewrite seat_move, decide_False; [done|]. naive_solver. }
  cbn [foldM]. rewrite Hst. cbn [obind].
  destruct (IH ir1 A1 r1 Hh1) as (ir2 & r2 & A2 & Hst2 & Hh2 & Hi2 & Hoth2).
  { intros e' He'. apply Hse, Hs. by right. }
  exists ir2, r2, A2. split_and!; [done|done| |].
  - eapply inferred_trans; [|exact Hi2]. split_and!; done.
  - intros d' e' Hne. rewrite Hoth2 by done. by apply Hoth.
Qed.

Lemma transition_domain_spec ar o d ir A r :
  irm_holds ar ir A -> orders_ok o -> d ∈ dom A ->
  exists ir' r' A', irm_transition_domain o (ir, r) d = Ok (ir', r') /\
    irm_holds ar ir' A' /\ inferred ir A ir' A' /\ (forall d' e', d' <> d -> seat A' d' e' = seat A d' e').
Proof.
  intros Hh Ho Hd. destruct (world_holds_dom _ A d (ih_world _ _ _ Hh) Hd) as (dm & sa & HWd & HAd & Hdm).
  unfold irm_transition_domain. rewrite HWd. cbn [at_ obind]. apply transition_ents_spec; [done|done|].
  intros e He. destruct Ho as (_ & _ & _ & Hoe). rewrite Hoe, elem_of_elements in He.
  destruct Hdm as [Hdi _]. rewrite Hdi in He. apply elem_of_dom in He. unfold seat. by rewrite HAd.
Qed.

Lemma transition_spec ar o ds ir A r :
  irm_holds ar ir A -> orders_ok o -> (forall d, d ∈ ds -> d ∈ dom A) ->
  exists ir' r' A', irm_transition o ir ds r = Ok (ir', r') /\
    irm_holds ar ir' A' /\ inferred ir A ir' A' /\ (forall d' e', d' ∉ ds -> seat A' d' e' = seat A d' e').
Proof.
  intros Hh Ho. revert ir A r Hh. unfold irm_transition. induction ds as [|d ds IH]; intros ir A r Hh Hs.
  { exists ir, r, A. split_and!; try done. }
  destruct (transition_domain_spec ar o d ir A r Hh Ho) as (ir1 & r1 & A1 & Hst & Hh1 & Hi1 & Hoth1).
  { apply Hs. left. }
  cbn [foldM]. rewrite Hst. cbn [obind].
  destruct (IH ir1 A1 r1 Hh1) as (ir2 & r2 & A2 & Hst2 & Hh2 & Hi2 & Hoth2).
  { intros d' Hd'. destruct Hi1 as (_ & _ & [-> _]). apply Hs. by right. }
  exists ir2, r2, A2. split_and!; [done|done|by eapply inferred_trans|].
  intros d' e' Hne. apply not_elem_of_cons in Hne as [? ?]. rewrite Hoth2 by done. by apply Hoth1.
Qed.

Lemma transition_all_spec ar o ir A r :
  irm_holds ar ir A -> orders_ok o ->
  exists ir' r' A', irm_transition_all o ir r = Ok (ir', r') /\ irm_holds ar ir' A' /\ inferred ir A ir' A'.
Proof.
  intros Hh Ho. unfold irm_transition_all.
  destruct (transition_spec ar o (o_names o (dom (i_domains ir))) ir A r Hh Ho) as (ir' & r' & A' & ? & ? & ? & _).
  { intros d Hd. destruct Ho as (_ & _ & Hon & _). rewrite Hon, elem_of_elements in Hd.
    apply elem_of_dom in Hd as [dm Hdm]. pose proof (ih_world _ _ _ Hh d) as Hw. rewrite Hdm in Hw.
    apply elem_of_dom. destruct (A !! d); [eauto|done]. }
  eauto 10.
Qed.

Lemma transition_ds_inv ar o ds ir A r st :
  irm_holds ar ir A -> orders_ok o -> irm_transition o ir ds r = Ok st -> forall d, d ∈ ds -> d ∈ dom A.
Proof.
  intros Hh Ho. revert ir A r Hh. unfold irm_transition. induction ds as [|d ds IH]; intros ir A r Hh H d' Hd'.
  { by apply elem_of_nil in Hd'. }
  cbn [foldM] in H. apply obind_Ok in H as ([ir1 r1] & H1 & H).
  assert (d ∈ dom A) as HdA.
  { unfold irm_transition_domain in H1. apply obind_Ok in H1 as (dm & Hdm%at_Ok & _).
    pose proof (ih_world _ _ _ Hh d) as Hw. rewrite Hdm in Hw. apply elem_of_dom. destruct (A !! d); [eauto|done]. }
  destruct (transition_domain_spec ar o d ir A r Hh Ho HdA) as (ir2 & r2 & A2 & Hst & Hh2 & (_ & _ & [Hdom _]) & _).
  rewrite Hst in H1. injection H1 as <- <-.
  apply elem_of_cons in Hd' as [->|Hd']; [done|]. rewrite <- Hdom. by eapply IH.
Qed.

(** * Hyperparameters *)
Lemma hparams_loop_spec ar o names ir A r ir' r' :
  irm_holds ar ir A -> foldM (irm_hparams_one o) (ir, r) names = Ok (ir', r') ->
  irm_holds ar ir' A /\ inferred ir A ir' A.
Proof.
  revert ir r. induction names as [|name names IH]; intros ir r Hh H; cbn [foldM] in H.
  { injection H as <- <-. split; [done|]. apply inferred_refl. }
  apply obind_Ok in H as ([ir1 r1] & H1 & H). unfold irm_hparams_one in H1.
  apply obind_Ok in H1 as (a & Ha%at_Ok & H1). apply obind_Ok in H1 as ([a' r2] & H1 & [= <- <-]).
  destruct (any_hparams_spec ar o A a r a' r2 (ih_rels _ _ _ Hh name a Ha) H1) as (Ha' & Hty & Hdt).
  assert (irm_holds ar (i_set_rel ir name a') A) as Hh1.
  { apply (irm_holds_update ar ir A _ (<[name := a']> (i_rels ir)) A Hh (ih_world _ _ _ Hh) eq_refl).
    - by eapply shape_insert.
    - intros n' b Hb'. destruct (decide (n' = name)) as [->|Hne].
      + rewrite lookup_insert in Hb'. by injection Hb' as <-.
      + rewrite lookup_insert_ne in Hb' by done. by eapply ih_rels. }
  destruct (IH _ _ Hh1 H) as [Hh2 Hi2]. split; [done|]. eapply inferred_trans; [|exact Hi2].
  split_and!; try done.
  - unfold same_frame, irm_shape. simpl. split_and!; try done. by eapply shape_insert.
  - unfold irm_data. simpl. rewrite fmap_insert, Hdt. apply insert_id. by rewrite lookup_fmap, Ha.
Qed.

Lemma alpha_loop_spec ar lg names ir A r ir' r' :
  irm_holds ar ir A -> foldM (irm_alpha_one lg) (ir, r) names = Ok (ir', r') ->
  irm_holds ar ir' A /\ inferred ir A ir' A.
Proof.
  revert ir r. induction names as [|d names IH]; intros ir r Hh H; cbn [foldM] in H.
  { injection H as <- <-. split; [done|]. apply inferred_refl. }
  apply obind_Ok in H as ([ir1 r1] & H1 & H). unfold irm_alpha_one in H1.
  apply obind_Ok in H1 as (dm & Hdm%at_Ok & H1). apply obind_Ok in H1 as ([c r2] & H1 & [= <- <-]).
  pose proof (ih_world _ _ _ Hh d) as Hw. rewrite Hdm in Hw. destruct (A !! d) as [sa|] eqn:HAd; [|done].
  destruct Hw as [Hdi Hds].
  destruct (transition_alpha_spec lg (dom_crp dm) sa r Hds) as (c' & r3 & Hc & HN & HT & HS & _).
  rewrite Hc in H1. injection H1 as -> ->.
  assert (domain_holds (Dom (dom_items dm) c) sa) as Hdm'.
  { split; [done|]. simpl. destruct Hds as [h1 h2 h3]. split; [by rewrite HS|by rewrite HN|]. intros t. rewrite HT. apply h3. }
  assert (irm_holds ar (i_set_domains ir (<[d := Dom (dom_items dm) c]> (i_domains ir))) A) as Hh1.
  { apply (irm_holds_update ar ir A _ (i_rels ir) A Hh); try done; [|by apply Hh].
    rewrite <- (insert_id A d sa HAd). apply world_holds_insert; [apply Hh|done]. }
  destruct (IH _ _ Hh1 H) as [Hh2 Hi2]. split; [done|]. eapply inferred_trans; [|exact Hi2]. split_and!; done.
Qed.

Lemma single_step_spec ar lg o ir A r ir' r' :
  irm_holds ar ir A -> orders_ok o -> irm_single_step lg o ir false r = Ok (ir', r') ->
  exists A', irm_holds ar ir' A' /\ inferred ir A ir' A'.
Proof.
  intros Hh Ho H. unfold irm_single_step in H. cbn [obind] in H.
  destruct (transition_all_spec ar o ir A r Hh Ho) as (ir1 & r1 & A1 & H1 & Hh1 & Hi1).
  rewrite H1 in H. cbn [obind] in H. apply obind_Ok in H as ([ir2 r2] & H2 & H).
  destruct (hparams_loop_spec ar o _ ir1 A1 r1 ir2 r2 Hh1 H2) as [Hh2 Hi2].
  destruct (alpha_loop_spec ar lg _ ir2 A1 r2 ir' r' Hh2 H) as [Hh3 Hi3].
  exists A1. split; [done|]. eapply inferred_trans; [exact Hi1|]. by eapply inferred_trans.
Qed.
End PIrm.
