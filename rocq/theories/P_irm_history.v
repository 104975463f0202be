(** Histories of calls on an IRM. *)
From Coq Require Import String Ascii.
From stdpp Require Import gmap strings sorting.
From Coq Require Import ZArith Reals Lia.
From Verif Require Import M_base M_crp M_domain M_dist M_relation M_noisy M_irm
  S_crp S_crp_state S_relation S_irm P_base P_crp P_domain P_relation P_any P_irm P_irm_schema.

Section History.
Context {V : Type}.
Implicit Types (ir : irm V) (A : clustering) (ar : string -> option nat).

Lemma irm_lookup_arity ar ir A : irm_holds ar ir A -> lookup_arity ar (irm_lookup ir).
Proof. intros H name a Ha. by eapply ih_arity. Qed.

Lemma irm_schema_lookup ar ir A name a : irm_holds ar ir A -> i_rels ir !! name = Some a ->
  exists t, i_schema ir !! name = Some t /\ t = any_type a (t_observed t) /\ t_domains t = any_doms a.
Proof.
  intros Hh Ha. pose proof (ih_schema _ _ _ Hh name) as Hs. rewrite Ha in Hs.
  destruct (i_schema ir !! name) as [t|]; [|done]. exists t. split_and!; [done|done|].
  rewrite Hs. apply any_type_t_domains.
Qed.
Lemma irm_rel_lookup ar ir A name t : irm_holds ar ir A -> i_schema ir !! name = Some t ->
  exists a, i_rels ir !! name = Some a /\ t = any_type a (t_observed t) /\ t_domains t = any_doms a.
Proof.
  intros Hh Ht. pose proof (ih_schema _ _ _ Hh name) as Hs. rewrite Ht in Hs.
  destruct (i_rels ir !! name) as [a|]; [|done]. exists a. split_and!; [done|done|].
  rewrite Hs. apply any_type_t_domains.
Qed.

Definition doms_of ir (name : string) : list string := from_option t_domains [] (i_schema ir !! name).

Lemma irm_do_effect ar ir A c ir' :
  irm_holds ar ir A -> irm_tight ir A -> irm_call_ok c -> irm_do ir c = Ok ir' ->
  exists A', irm_holds ar ir' A' /\ irm_tight ir' A' /\ same_frame ir ir' /\
    irm_data ir' = irm_data_after (irm_data ir) c /\ irm_clustering_after (doms_of ir) A A' c.
Proof.
  intros Hh Ht Hok Hdo. pose proof (irm_lookup_arity ar ir A Hh) as Hlk.
  destruct c as [name items v r|o name items|o d e r|o ds r|o r|lg o r]; simpl in Hok; cbn [irm_do] in Hdo.
  - apply obind_Ok in Hdo as ([ir1 r1] & Hi & [= <-]).
    destruct (irm_incorporate_spec ar _ ir A name items v r ir1 r1 Hh Hlk Hi)
      as (A' & a & Hh' & Hf & Ha & Hn & Hl & Hd & HdA & Hk & Hiff).
    destruct (irm_schema_lookup ar ir A name a Hh Ha) as (t & Hst & _ & Htd).
    exists A'. split_and!; try done.
    + eapply irm_incorporate_tight; [exact Hh|done|exact Hlk|exact Hi|]. intros a' Ha'. rewrite Ha in Ha'. by injection Ha' as <-.
    + rewrite Hd. simpl. apply map_eq. intros n'. destruct (decide (n' = name)) as [->|].
      * rewrite lookup_insert, lookup_alter. unfold irm_data. by rewrite lookup_fmap, Ha.
      * by rewrite lookup_insert_ne, lookup_alter_ne.
    + simpl. split_and!; try done. unfold doms_of. rewrite Hst. simpl. by rewrite Htd.
  - destruct (irm_unincorporate_inv _ o ir name items ir' Hdo) as (a & Ha & Hi & Hb).
    destruct (irm_unincorporate_spec ar _ o ir A name items a Hh Hlk Hok Ha Hi Hb)
      as (ir2 & A' & H2 & Hh' & Hf & Hd & HdA & Hs). rewrite Hdo in H2. injection H2 as <-.
    destruct (irm_schema_lookup ar ir A name a Hh Ha) as (t & Hst & _ & Htd).
    exists A'. split_and!; try done.
    + eapply irm_unincorporate_tight; [exact Ht|exact Ha|apply Hf|exact Hd|exact Hs|].
      intros d e Hm. eapply any_holds_mentions; [by eapply ih_rels|]. by exists items.
    + rewrite Hd. simpl. apply map_eq. intros n'. destruct (decide (n' = name)) as [->|].
      * rewrite lookup_insert, lookup_alter. unfold irm_data. by rewrite lookup_fmap, Ha.
      * by rewrite lookup_insert_ne, lookup_alter_ne.
    + simpl. split_and!; try done.
      * intros d e t' Hs'. rewrite Hs in Hs'. by destruct (decide _).
      * intros d e Hm. unfold doms_of in Hm. rewrite Hst in Hm. simpl in Hm. rewrite Htd in Hm.
        rewrite Hs, decide_False; [done|]. intros [? _]. done.
  - apply obind_Ok in Hdo as ([ir1 r1] & Hi & [= <-]).
    pose proof (irm_transition_item_inv ar o ir A d e r _ Hh Hi) as Hseat.
    destruct (irm_transition_item_spec ar o ir A d e r Hh Hok Hseat) as (ir2 & r2 & A' & H2 & Hh' & Hf & Hd & HA').
    rewrite Hi in H2. injection H2 as <- <-.
    assert (same_entities A A') as Hse.
    { destruct HA' as [->|[t ->]]; [done|]. by apply same_entities_move. }
    exists A'. split_and!; try done.
    + eapply irm_tight_same; [apply Hf|done|done|done].
    + simpl. split; [done|]. intros d' e' Hne. destruct HA' as [->|[t ->]]; [done|].
      rewrite seat_move, decide_False; [done|]. intros (-> & -> & _). done.
  - apply obind_Ok in Hdo as ([ir1 r1] & Hi & [= <-]).
    pose proof (transition_ds_inv ar o ds ir A r _ Hh Hok Hi) as Hds.
    destruct (transition_spec ar o ds ir A r Hh Hok Hds) as (ir2 & r2 & A' & H2 & Hh' & (Hf & Hd & Hse) & HA').
    rewrite Hi in H2. injection H2 as <- <-.
    exists A'. split_and!; try done. eapply irm_tight_same; [apply Hf|done|done|done].
  - apply obind_Ok in Hdo as ([ir1 r1] & Hi & [= <-]).
    destruct (transition_all_spec ar o ir A r Hh Hok) as (ir2 & r2 & A' & H2 & Hh' & (Hf & Hd & Hse)).
    rewrite Hi in H2. injection H2 as <- <-.
    exists A'. split_and!; try done. eapply irm_tight_same; [apply Hf|done|done|done].
  - apply obind_Ok in Hdo as ([ir1 r1] & Hi & [= <-]).
    destruct (single_step_spec ar lg o ir A r _ _ Hh Hok Hi) as (A' & Hh' & (Hf & Hd & Hse)).
    exists A'. split_and!; try done. eapply irm_tight_same; [apply Hf|done|done|done].
Qed.

Lemma irm_history ar cs ir A ir' :
  irm_holds ar ir A -> irm_tight ir A -> Forall irm_call_ok cs -> foldM irm_do ir cs = Ok ir' ->
  exists A', irm_holds ar ir' A' /\ irm_tight ir' A' /\ same_frame ir ir' /\
    irm_data ir' = foldl irm_data_after (irm_data ir) cs.
Proof.
  revert ir A. induction cs as [|c cs IH]; intros ir A Hh Ht Hok Hf; cbn [foldM] in Hf.
  { injection Hf as <-. exists A. split_and!; try done. }
  apply Forall_cons in Hok as [Hc Hcs]. apply obind_Ok in Hf as (ir1 & H1 & Hf).
  destruct (irm_do_effect ar ir A c ir1 Hh Ht Hc H1) as (A1 & Hh1 & Ht1 & Hf1 & Hd1 & _).
  destruct (IH ir1 A1 Hh1 Ht1 Hcs Hf) as (A' & ? & ? & Hf' & Hd'). exists A'. split_and!; try done.
  - by eapply same_frame_trans.
  - simpl. by rewrite Hd', Hd1.
Qed.

Lemma in_domain_seat ar ir A d e : irm_holds ar ir A -> in_domain ir d e <-> is_Some (seat A d e).
Proof.
  intros Hh. pose proof (ih_world _ _ _ Hh d) as Hd. unfold in_domain, seat.
  destruct (i_domains ir !! d) as [dm|], (A !! d) as [a|]; try done; simpl.
  - destruct Hd as [Hi _]. split.
    + intros (? & [= <-] & He). rewrite Hi in He. by apply elem_of_dom.
    + intros He. exists dm. split; [done|]. rewrite Hi. by apply elem_of_dom.
  - split; [intros (? & ? & _); done|by intros [? ?]].
Qed.

Lemma data_mentions_irm ar ir A d e : irm_holds ar ir A ->
  data_mentions (i_schema ir) (irm_data ir) d e <-> mentioned (i_rels ir) d e.
Proof.
  intros Hh. split.
  - intros (name & t & m & items & Ht & Hm & Hi & Hmen).
    destruct (irm_rel_lookup ar ir A name t Hh Ht) as (a & Ha & _ & Htd).
    unfold irm_data in Hm. rewrite lookup_fmap, Ha in Hm. injection Hm as <-.
    exists name, a. split; [done|]. exists items. split; [done|]. by rewrite <- Htd.
  - intros (name & a & Ha & items & Hi & Hmen).
    destruct (irm_schema_lookup ar ir A name a Hh Ha) as (t & Ht & _ & Htd).
    exists name, t, (any_data a), items. split_and!; try done; [|by rewrite Htd].
    unfold irm_data. by rewrite lookup_fmap, Ha.
Qed.

Lemma irm_new_tight schema ir : schema_lawful schema -> irm_new schema = Ok ir ->
  exists A, irm_holds (schema_arity schema) ir A /\ irm_tight ir A /\ i_schema ir = schema /\
    irm_data ir = no_data schema.
Proof.
  intros HL Hn. destruct (irm_new_holds schema ir HL Hn) as (A & Hh & Hs & Hseat & Hdata).
  rewrite Hs in Hh. exists A. split_and!; try done.
  - intros d e. rewrite Hseat. split; [by intros [? ?]|]. intros (name & a & Ha & items & Hi & _).
    rewrite (Hdata name a Ha), lookup_empty in Hi. by destruct Hi.
  - unfold irm_data, no_data. apply map_eq. intros name. rewrite !lookup_fmap. rewrite <- Hs.
    pose proof (ih_schema _ _ _ Hh name) as Hsch. destruct (i_schema ir !! name) as [t|], (i_rels ir !! name) as [a|] eqn:Ea; try done.
    simpl. by rewrite (Hdata name a Ea).
Qed.

(** ** When incorporate succeeds *)
Lemma accepts_iff {W} (D : Dist W) (L : lawful D) sp v : accepts D sp v <-> law_adm L v.
Proof.
  split.
  - intros (r & s' & H). destruct (law_new D L sp r) as (h & Hh). rewrite Hh in H.
    apply law_inc in H as [? _]; [done|constructor].
  - intros Hv. exists []. destruct (law_new D L sp []) as (h & Hh). rewrite Hh. eexists.
    apply law_inc; [constructor|]. by split.
Qed.

Lemma irm_incorporate_iff ar ir A name items v r :
  irm_holds ar ir A ->
  (exists st, irm_incorporate (irm_lookup ir) ir name items v r = Ok st) <->
  exists t m, i_schema ir !! name = Some t /\ irm_data ir !! name = Some m /\
    length items = length (t_domains t) /\ m !! items = None /\ t_accepts (i_schema ir) (irm_data ir) t items v.
Proof.
  intros Hh. unfold irm_incorporate. split.
  - intros (st & H). apply obind_Ok in H as (a & Ha%at_Ok & H). apply obind_Ok in H as ([[W' a'] r'] & Hi & _).
    destruct (irm_schema_lookup ar ir A name a Hh Ha) as (t & Ht & Hty & Htd).
    destruct (any_incorporate_spec ar _ _ A a items v r W' a' r' (ih_world _ _ _ Hh) (ih_rels _ _ _ Hh name a Ha)
      (irm_lookup_arity ar ir A Hh) Hi) as (A' & _ & _ & _ & Hl & Hn & _).
    exists t, (any_data a). split_and!; try done.
    + unfold irm_data. by rewrite lookup_fmap, Ha.
    + by rewrite Htd.
    + pose proof (ih_rels _ _ _ Hh name a Ha) as Hah. rewrite Hty. destruct a as [D rel|n]; simpl in *.
      * destruct Hah as [L Hrel]. apply obind_Ok in Hi as ([[W1 rel1] r1] & Hi & _).
        apply (accepts_iff D L). exact (proj2 (proj2 (rel_incorporate_inv L _ _ _ _ _ _ _ (ih_world _ _ _ Hh) Hrel Hi))).
      * destruct Hah as ([L Hrel] & _). apply obind_Ok in Hi as (b & Hb & Hi). apply obind_Ok in Hi as ([[W1 n1] r1] & Hi & _).
        unfold base_of in Hb. apply obind_Ok in Hb as (ab & Hab%idx_Ok & [= <-]). unfold irm_lookup in Hab.
        unfold noisy_incorporate in Hi. apply obind_Ok in Hi as (bi & Hbi & Hi).
        apply obind_Ok in Hi as (bv & Hbv & Hi). apply obind_Ok in Hi as ([[W1' rel1] r1'] & Hi & _).
        unfold get_base_items in Hbi. simpl in Hbi. case_bool_decide; [|done]. injection Hbi as <-.
        unfold base_get_value in Hbv. apply obind_Ok in Hbv as (u & _ & Hbv%at_Ok). simpl in Hbv.
        destruct (irm_schema_lookup ar ir A _ ab Hh Hab) as (tb & Htb & _ & Htbd).
        exists tb, (any_data ab), bv. rewrite Htbd. split_and!; try done.
        { unfold irm_data. by rewrite lookup_fmap, Hab. }
        apply (accepts_iff _ L). exact (proj2 (proj2 (rel_incorporate_inv L _ _ _ _ _ _ _ (ih_world _ _ _ Hh) Hrel Hi))).
  - intros (t & m & Ht & Hm & Hl & Hn & Hacc).
    destruct (irm_rel_lookup ar ir A name t Hh Ht) as (a & Ha & Hty & Htd). rewrite Ha. cbn [at_ obind].
    unfold irm_data in Hm. rewrite lookup_fmap, Ha in Hm. injection Hm as <-. rewrite Htd in Hl.
    pose proof (ih_rels _ _ _ Hh name a Ha) as Hah. rewrite Hty in Hacc. destruct a as [D rel|n]; simpl in *.
    + destruct Hah as [L Hrel].
      destruct (rel_incorporate_spec L (i_domains ir) A rel items v r (ih_world _ _ _ Hh) Hrel Hl Hn) as (W' & A' & rel' & r' & -> & _).
      { by apply (accepts_iff D L) in Hacc. }
      simpl. eauto.
    + destruct Hah as ([L Hrel] & Hdom & k & Hk & Hkl & Hidx).
      destruct Hacc as (tb & mb & bv & Htb & Hmb & Hbv & Hacc).
      destruct (irm_rel_lookup ar ir A _ tb Hh Htb) as (ab & Hab & _ & Htbd).
      unfold irm_data in Hmb. rewrite lookup_fmap, Hab in Hmb. injection Hmb as <-. rewrite Htbd in Hbv.
      pose proof (ih_arity _ _ _ Hh _ _ Hab) as Har. rewrite Hk in Har. injection Har as ->.
      unfold base_of, irm_lookup. rewrite Hab. simpl. unfold noisy_incorporate, get_base_items. simpl.
      rewrite bool_decide_eq_true_2 by lia. simpl. unfold base_get_value. simpl.
      rewrite bool_decide_eq_true_2 by (apply elem_of_dom; eauto). simpl. rewrite Hbv. simpl.
      destruct (rel_incorporate_spec L (i_domains ir) A (n_rel n) items (bv, v) r (ih_world _ _ _ Hh) Hrel Hl) as (W' & A' & rel' & r' & -> & _).
      { apply eq_None_not_Some. rewrite <- noisy_key by done. rewrite Hn. by intros [? ?]. }
      { by apply (accepts_iff _ L) in Hacc. }
      simpl. eauto.
Qed.

(** Every declared base stays declared. *)
Definition bases_declared ir : Prop := forall name t b, i_schema ir !! name = Some t -> t_base t = Some b -> is_Some (i_schema ir !! b).

Lemma bases_declared_found ar ir A : irm_holds ar ir A -> bases_declared ir -> bases_found (irm_lookup ir) ir.
Proof.
  intros Hh Hb name a b Ha Hab. destruct (irm_schema_lookup ar ir A name a Hh Ha) as (t & Ht & Hty & _).
  destruct (Hb name t b Ht) as [tb Htb].
  { rewrite Hty. by rewrite any_type_t_base. }
  destruct (irm_rel_lookup ar ir A b tb Hh Htb) as (ab & Hab' & _). by exists ab.
Qed.

Lemma irm_unincorporate_iff ar o ir A name items :
  irm_holds ar ir A -> bases_declared ir -> orders_ok o ->
  (exists ir', irm_unincorporate (irm_lookup ir) o ir name items = Ok ir') <->
  exists m, irm_data ir !! name = Some m /\ is_Some (m !! items).
Proof.
  intros Hh Hbd Ho. split.
  - intros [ir' H]. destruct (irm_unincorporate_inv _ o ir name items ir' H) as (a & Ha & Hi & _).
    exists (any_data a). split; [|done]. unfold irm_data. by rewrite lookup_fmap, Ha.
  - intros (m & Hm & Hi). unfold irm_data in Hm. rewrite lookup_fmap in Hm.
    destruct (i_rels ir !! name) as [a|] eqn:Ha; [|done]. injection Hm as <-.
    destruct (irm_unincorporate_spec ar (irm_lookup ir) o ir A name items a Hh) as (ir' & A' & H & _); try done; [|eauto|eauto].
    { by eapply irm_lookup_arity. }
    intros b Hb. by eapply bases_declared_found.
Qed.

Lemma has_obs_loop_spec ar ir A d e names :
  irm_holds ar ir A -> (forall name, name ∈ names -> exists a, i_rels ir !! name = Some a /\ d ∈ any_doms a) ->
  exists b, has_obs_loop ir d e names = Ok b /\
    (b = true <-> exists name a, name ∈ names /\ i_rels ir !! name = Some a /\ any_mentions a d e).
Proof.
  intros Hh. induction names as [|name names IH]; intros Hn.
  { exists false. split; [done|]. split; [done|]. intros (? & ? & H & _). by apply elem_of_nil in H. }
  destruct (Hn name) as (a & Ha & Hd); [left|]. cbn [has_obs_loop]. rewrite Ha. cbn [at_ obind].
  destruct (any_has_observation_spec ar A a d e (ih_rels _ _ _ Hh name a Ha) Hd) as (b & -> & Hb). cbn [obind].
  destruct b.
  - exists true. split; [done|]. split; [|done]. intros _. exists name, a. split_and!; [left|done|by apply Hb].
  - destruct IH as (b & -> & Hiff); [intros; apply Hn; by right|]. exists b. split; [done|]. rewrite Hiff. split.
    + intros (n & a' & ? & ? & ?). exists n, a'. split_and!; try done. by right.
    + intros (n & a' & [->|?]%elem_of_cons & Ha' & Hm); [|eauto]. rewrite Ha in Ha'. injection Ha' as <-.
      apply Hb in Hm. done.
Qed.

Lemma irm_has_observation_spec ar o ir A d e :
  irm_holds ar ir A -> irm_tight ir A -> orders_ok o -> d ∈ dom A ->
  exists b, irm_has_observation o ir d e = Ok b /\ (b = true <-> is_Some (seat A d e)).
Proof.
  intros Hh Ht (Hov & Hog & Hon & Hoe) HdA. unfold irm_has_observation.
  pose proof (ih_d2r _ _ _ Hh d) as Hd2. destruct (i_d2r ir !! d) as [s|]; [|done]. destruct Hd2 as [_ Hs].
  cbn [at_ obind]. pose proof (ih_world _ _ _ Hh d) as Hw. apply elem_of_dom in HdA as [sa HdA]. rewrite HdA in Hw.
  destruct (i_domains ir !! d) as [dm|]; [|done].
  assert (forall name, name ∈ o_names o s <-> name ∈ s) as Hin by (intros; by rewrite Hon, elem_of_elements).
  destruct (has_obs_loop_spec ar ir A d e (o_names o s) Hh) as (b & Hb & Hiff).
  { intros name Hn. apply Hs. by apply Hin. }
  exists b. split.
  { case_bool_decide; cbn [at_ obind]; done. }
  rewrite Hiff, (Ht d e). split.
  - intros (name & a & _ & Ha & Hm). eauto.
  - intros (name & a & Ha & Hm). exists name, a. split_and!; try done. apply Hin, Hs. exists a. split; [done|].
    by eapply any_mentions_doms.
Qed.
End History.
