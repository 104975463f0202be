(** Loading observations: the generic proof. *)
From Coq Require Import String Ascii.
From stdpp Require Import gmap strings list.
From Coq Require Import ZArith Lia.
From Verif Require Import M_base M_dist M_crp M_domain M_relation M_noisy M_irm M_hirm M_text M_io S_irm S_io S_load P_base P_io.
Local Open Scope nat_scope.

Section PLoad.
Context {M V : Type} (X : model_ops M V) (parse : string -> string -> outcome V).
Context (I0 : M -> Prop) (dat : M -> string -> option (gmap items_t V)) (ar : string -> nat).

(** What is used about the model. *)
Record ops_laws : Prop := {
  l_inc : forall m n items v r m' r', I0 m -> op_incorporate X m n items v r = Ok (m', r') ->
    I0 m' /\ exists d, dat m n = Some d /\ d !! items = None /\ dat m' n = Some (<[items := v]> d) /\
    forall n', n' <> n -> dat m' n' = dat m n';
  l_sample : forall m n items r v m' r', I0 m -> op_sample_at X m n items r = Ok (v, m', r') ->
    I0 m' /\ forall n', dat m' n' = dat m n';
  l_get : forall m n a, I0 m -> op_get X m n = Ok a -> dat m n = Some (any_data a);
  l_base : forall m n a nz b, I0 m -> op_get X m n = Ok a -> as_noisy a = Ok nz -> base_of (op_lookup X m) nz = Ok b -> bv_arity b = ar n;
}.
Context (L : ops_laws).

Definition grows (m m' : M) : Prop := forall n d, dat m n = Some d -> exists d', dat m' n = Some d' /\ d ⊆ d'.
Lemma grows_refl m : grows m m.
Proof. intros n d H. eauto. Qed.
Lemma grows_trans a b c : grows a b -> grows b c -> grows a c.
Proof. intros H1 H2 n d H. destruct (H1 n d H) as (d1 & Hd1 & ?). destruct (H2 n d1 Hd1) as (d2 & ? & ?). exists d2. split; [done|]. by etrans. Qed.

Lemma note_spec m n a base l : I0 m -> op_get X m n = Ok a -> forall ri ri',
  foldM (note_base_items X m a base) ri l = Ok ri' ->
  forall k items, items ∈ default ∅ (ri' !! k) <-> items ∈ default ∅ (ri !! k) \/ (k = base /\ exists i, i ∈ l /\ items = take (ar n) i).
Proof.
  intros HI Ha. induction l as [|x l IH]; intros ri ri'; cbn [foldM].
  { intros [= <-] k items. split; [by left|]. intros [?|(_ & i & Hin & _)]; [done|]. by apply elem_of_nil in Hin. }
  intros H. apply obind_Ok in H as (ri1 & H1 & H2). unfold note_base_items in H1.
  apply obind_Ok in H1 as (nz & Hnz & H1). apply obind_Ok in H1 as (b & Hb & H1). apply obind_Ok in H1 as (bi & Hbi & [= <-]).
  unfold get_base_items in Hbi. destruct (bool_decide _); [|done]. injection Hbi as <-.
  rewrite (l_base L m n a nz b HI Ha Hnz Hb) in H2. intros k items. rewrite (IH _ _ H2). unfold add_items.
  destruct (decide (k = base)) as [->|Hne].
  - rewrite lookup_insert. cbn [from_option id]. rewrite elem_of_union, elem_of_singleton. split.
    + intros [[->|?]|(_ & i & ? & ?)]; [right; split; [done|]; exists x; split; [by left|done]|by left|].
      right. split; [done|]. exists i. split; [by right|done].
    + intros [?|(_ & i & Hin & ->)]; [by left; right|]. apply elem_of_cons in Hin as [->|Hin]; [by left; left|right; eauto].
  - rewrite lookup_insert_ne by done. naive_solver.
Qed.

Lemma observed_spec n l : forall m r m' r' d, I0 m -> dat m n = Some d ->
  foldM (incorporate_observed X parse n) (m, r) l = Ok (m', r') ->
  I0 m' /\ (forall n', n' <> n -> dat m' n' = dat m n') /\
  exists vs, Forall2 (fun x v => parse n x.2 = Ok v) l vs /\ dat m' n = Some (list_to_map (zip (map fst l) vs) ∪ d) /\
    NoDup (map fst l) /\ Forall (fun x => d !! x.1 = None) l.
Proof.
  induction l as [|x l IH]; intros m r m' r' d HI Hd; cbn [foldM].
  { intros [= <- <-]. split; [done|]. split; [done|]. exists []. split; [done|]. simpl. rewrite (left_id_L ∅ (∪)). split; [done|].
    split; [apply NoDup_nil_2|done]. }
  intros H. apply obind_Ok in H as ([m1 r1] & H1 & H2). unfold incorporate_observed in H1. apply obind_Ok in H1 as (v & Hv & H1).
  destruct (l_inc L _ _ _ _ _ _ _ HI H1) as (HI1 & d0 & Hd0 & Hnew & Hd1 & Ho1). rewrite Hd in Hd0. injection Hd0 as <-.
  destruct (IH m1 r1 m' r' _ HI1 Hd1 H2) as (HI' & Ho & vs & HF & Hdat & Hnd & Hfr).
  split; [done|]. split; [intros n' Hn; by rewrite Ho, Ho1|]. exists (v :: vs). split; [by constructor|].
  assert (x.1 ∉ map fst l) as Hx.
  { intros Hin. apply elem_of_list_fmap in Hin as (y & Hy & Hin). pose proof (proj1 (Forall_forall _ _) Hfr y Hin) as E.
    cbv beta in E. rewrite <- Hy, lookup_insert in E. done. }
  split; [|split].
  - rewrite Hdat. f_equal. cbn [map zip list_to_map]. simpl. apply map_eq. intros i.
    assert (length (map fst l) = length vs) as Hlen by (rewrite map_length; by eapply Forall2_length).
    assert (x.1 ∉ (zip (map fst l) vs).*1) as Hz. { rewrite fst_zip by lia. done. }
    rewrite lookup_union. destruct (decide (i = x.1)) as [->|Hne].
    + rewrite (not_elem_of_list_to_map_1 (zip (map fst l) vs) x.1 Hz). rewrite lookup_insert.
      rewrite lookup_union, lookup_insert. by destruct (d !! x.1).
    + rewrite lookup_insert_ne by done. rewrite lookup_union, lookup_insert_ne by done. done.
  - apply NoDup_cons. done.
  - constructor; [done|]. apply Forall_forall. intros y Hin. pose proof (proj1 (Forall_forall _ _) Hfr y Hin) as E. cbv beta in E.
    apply lookup_insert_None in E. tauto.
Qed.

Lemma sampled_spec n l : forall m r m' r' d, I0 m -> dat m n = Some d ->
  foldM (incorporate_sampled X n) (m, r) l = Ok (m', r') ->
  I0 m' /\ (forall n', n' <> n -> dat m' n' = dat m n') /\
  exists d', dat m' n = Some d' /\ d ⊆ d' /\ forall items, is_Some (d' !! items) <-> is_Some (d !! items) \/ items ∈ l.
Proof.
  induction l as [|x l IH]; intros m r m' r' d HI Hd; cbn [foldM].
  { intros [= <- <-]. split; [done|]. split; [done|]. exists d. split_and!; [done|done|]. intros items. split; [by left|].
    intros [?|H]; [done|]. by apply elem_of_nil in H. }
  intros H. apply obind_Ok in H as ([m1 r1] & H1 & H2). unfold incorporate_sampled in H1.
  apply obind_Ok in H1 as ([[v m2] r2] & Hs & H1). destruct (l_sample L _ _ _ _ _ _ _ HI Hs) as [HI2 Hs2].
  apply obind_Ok in H1 as (a & Ha & H1). pose proof (l_get L _ _ _ HI2 Ha) as Hda. rewrite Hs2, Hd in Hda. injection Hda as ->.
  destruct (bool_decide (x ∈ dom (any_data a))) eqn:Hx.
  - injection H1 as -> ->. apply bool_decide_eq_true, elem_of_dom in Hx.
    destruct (IH m1 r1 m' r' (any_data a) HI2) as (HI' & Ho & d' & Hd' & Hsub & Hdom); [by rewrite Hs2|done|].
    split; [done|]. split; [intros n' Hn; by rewrite Ho, Hs2|]. exists d'. split_and!; [done|done|]. intros items. rewrite Hdom, elem_of_cons. naive_solver.
  - apply bool_decide_eq_false, not_elem_of_dom in Hx.
    destruct (l_inc L _ _ _ _ _ _ _ HI2 H1) as (HI1 & d0 & Hd0 & Hnew & Hd1 & Ho1). rewrite Hs2, Hd in Hd0. injection Hd0 as <-.
    destruct (IH m1 r1 m' r' _ HI1 Hd1 H2) as (HI' & Ho & d' & Hd' & Hsub & Hdom).
    split; [done|]. split; [intros n' Hn; by rewrite Ho, Ho1, Hs2|]. exists d'. split; [done|]. split.
    { etrans; [|done]. by apply insert_subseteq. }
    intros items. rewrite Hdom, elem_of_cons. destruct (decide (items = x)) as [->|Hne].
    + rewrite lookup_insert. naive_solver.
    + rewrite lookup_insert_ne by done. naive_solver.
Qed.

(** ** The recursion *)
Context (o : orders) (Ho : orders_ok o) (obs : encoded) (n2b : gmap string string) (m0 : M).
Notation need := (needed obs (fun n => n2b !! n) ar).

Definition full (m : M) (n : string) (l : list (items_t * string)) : Prop :=
  exists d vs, dat m0 n = Some d /\ dat m n = Some (list_to_map (zip (map fst l) vs) ∪ d) /\
    Forall2 (fun x v => parse n x.2 = Ok v) l vs /\ NoDup (map fst l) /\ Forall (fun x => d !! x.1 = None) l.
Inductive covered (m : M) : string -> items_t -> Prop :=
| cov n items : (obs !! n = None -> exists d, dat m n = Some d /\ is_Some (d !! items)) ->
    (forall b, n2b !! n = Some b -> obs !! b = None -> covered m b (take (ar n) items)) -> covered m n items.
Record load_inv (m : M) (ri : gmap string (gset items_t)) (comp : gset string) : Prop := {
  li_I : I0 m;
  li_ri : forall n items, items ∈ default ∅ (ri !! n) -> match obs !! n with Some l => items ∈ map fst l | None => need n items end;
  li_obs : forall n l items, obs !! n = Some l -> items ∈ map fst l -> items ∈ default ∅ (ri !! n);
  li_seen : forall n l, obs !! n = Some l -> (n ∉ comp /\ dat m n = dat m0 n) \/ full m n l;
  li_lat : forall n, obs !! n = None -> match dat m0 n with
    | None => dat m n = None
    | Some d => exists d', dat m n = Some d' /\ d ⊆ d' /\ forall items, is_Some (d' !! items) -> is_Some (d !! items) \/ need n items
    end;
  li_cov : forall n l items, n ∈ comp -> obs !! n = Some l -> items ∈ map fst l -> covered m n items;
}.
Lemma covered_grows m m' n items : grows m m' -> covered m n items -> covered m' n items.
Proof.
  intros Hg. induction 1 as [n items H1 _ IH]. constructor; [|done]. intros Hn. destruct (H1 Hn) as (d & Hd & x & Hx).
  destruct (Hg n d Hd) as (d' & Hd' & Hsub). exists d'. split; [done|]. exists x. by eapply lookup_weaken.
Qed.

Lemma in_o_vecs (s : gset items_t) x : x ∈ o_vecs o s <-> x ∈ s.
Proof. destruct Ho as (H & _). by rewrite (H s), elem_of_elements. Qed.

Lemma union_grows (d e : gmap items_t V) : (forall k, is_Some (e !! k) -> d !! k = None) -> d ⊆ e ∪ d.
Proof.
  intros H. apply map_subseteq_spec. intros k x Hk. apply lookup_union_Some_raw. destruct (e !! k) eqn:E; [|by right].
  assert (d !! k = None) by (apply H; eauto). congruence.
Qed.

Lemma incorporate_relation_spec fuel : forall n m ri comp r m' ri' comp' r', load_inv m ri comp ->
  incorporate_relation X parse fuel o obs n2b n (m, ri, comp, r) = Ok (m', ri', comp', r') ->
  load_inv m' ri' comp' /\ grows m m' /\ {[n]} ∪ comp ⊆ comp' /\
  (forall k, default ∅ (ri !! k) ⊆ default ∅ (ri' !! k)) /\
  (forall items, items ∈ default ∅ (ri !! n) -> covered m' n items).
Proof.
  induction fuel as [|fuel IH]; intros n m ri comp r m' ri' comp' r' HI; cbn [incorporate_relation]; [done|].
  intros H. apply obind_Ok in H as (a & Ha & H). apply obind_Ok in H as ([[[m1 ri1] comp1] r1] & Hrec & H).
  apply obind_Ok in H as ([m2 r2] & Hinc & [= <- <- <- <-]).
  assert (load_inv m1 ri1 comp1 /\ grows m m1 /\ comp ⊆ comp1 /\ (forall k, default ∅ (ri !! k) ⊆ default ∅ (ri1 !! k)) /\
    (forall b, n2b !! n = Some b -> obs !! b = None -> forall items, items ∈ default ∅ (ri !! n) -> covered m1 b (take (ar n) items)))
    as (HI1 & Hg1 & Hc1 & Hri1 & Hcov).
  { destruct (n2b !! n) as [base|] eqn:Hn2b.
    2:{ injection Hrec as <- <- <- <-. split_and!; [done|apply grows_refl|done|done|done]. }
    destruct (bool_decide (base ∈ dom obs)) eqn:Hbo.
    - cbn [obind] in Hrec. destruct (IH _ _ _ _ _ _ _ _ _ HI Hrec) as (HI1 & Hg & Hc & Hri & _).
      split_and!; [done|done|set_solver|done|]. intros b [= <-] Hno. apply bool_decide_eq_true, elem_of_dom in Hbo as [? ?]. congruence.
    - apply bool_decide_eq_false, not_elem_of_dom in Hbo.
      apply obind_Ok in Hrec as (ri2 & Hri2 & Hrec). apply obind_Ok in Hri2 as (s & Hs%at_Ok & Hri2).
      pose proof (note_spec m n a base (o_vecs o s) (li_I _ _ _ HI) Ha ri ri2 Hri2) as Hnote.
      assert (load_inv m ri2 comp) as HI2.
      { split; [apply HI| | |apply HI|apply HI|apply HI].
        - intros k items Hin. apply Hnote in Hin as [Hin|(-> & i & Hin & ->)]; [by apply (li_ri _ _ _ HI)|]. rewrite Hbo.
          rewrite in_o_vecs in Hin. pose proof (li_ri _ _ _ HI n i) as Hi. rewrite Hs in Hi. specialize (Hi Hin).
          destruct (obs !! n) as [l|] eqn:Hl.
          + apply elem_of_list_fmap in Hi as ([i' v] & -> & Hin'). eapply needed_observed; eauto.
          + eapply needed_latent; eauto.
        - intros k l items Hk Hin. apply Hnote. left. by eapply (li_obs _ _ _ HI). }
      destruct (IH _ _ _ _ _ _ _ _ _ HI2 Hrec) as (HI1 & Hg & Hc & Hri & Hcv).
      split_and!; [done|done|set_solver| |].
      + intros k items Hin. apply (Hri k). apply Hnote. by left.
      + intros b [= <-] _ items Hin. apply Hcv. apply Hnote. right. split; [done|]. exists items. split; [|done].
        apply in_o_vecs. by rewrite Hs in Hin. }
  pose proof (l_get L _ _ _ (li_I _ _ _ HI) Ha) as Hda. destruct (Hg1 _ _ Hda) as (d1 & Hd1 & _).
  destruct (obs !! n) as [l|] eqn:Hn.
  - destruct (observed_spec n l m1 r1 m2 r2 d1 (li_I _ _ _ HI1) Hd1 Hinc) as (HI2 & Hother & vs & HF & Hdat & Hnd & Hfr).
    assert (length (map fst l) = length vs) as Hlen by (rewrite map_length; by eapply Forall2_length).
    assert (forall k, is_Some ((list_to_map (zip (map fst l) vs) : gmap items_t V) !! k) -> k ∈ map fst l) as Hkeys.
    { intros k [y Hy]. apply elem_of_list_to_map_2 in Hy. apply (elem_of_list_fmap_1 fst) in Hy. by rewrite fst_zip in Hy by lia. }
    assert (grows m1 m2) as Hg2.
    { intros k d Hk. destruct (decide (k = n)) as [->|Hne]; [|exists d; by rewrite Hother].
      rewrite Hd1 in Hk. injection Hk as <-. eexists. split; [done|]. apply union_grows. intros k Hk%Hkeys.
      apply elem_of_list_fmap in Hk as (y & -> & Hin). exact (proj1 (Forall_forall _ _) Hfr y Hin). }
    split; [|split; [by eapply grows_trans|split; [set_solver|split; [done|]]]].
    + split; [done|apply HI1|apply HI1| | |].
      * intros k lk Hk. destruct (decide (k = n)) as [->|Hne].
        -- right. rewrite Hn in Hk. injection Hk as <-. destruct (li_seen _ _ _ HI1 n l Hn) as [[_ E]|(d & vs0 & Hd & E & HF0 & _)].
           ++ exists d1, vs. rewrite <- E. done.
           ++ destruct l as [|x l].
              ** exists d, []. inversion HF; subst. simpl in *. inversion HF0; subst. simpl in *. rewrite (left_id_L ∅ (∪)) in *.
                 rewrite E in Hd1. injection Hd1 as <-. done.
              ** exfalso. rewrite Hd1 in E. injection E as ->. inversion HF0 as [|? v0 ? vs1]; subst.
                 apply Forall_cons in Hfr as [Hx _]. simpl in Hx. apply lookup_union_None in Hx as [Hx _]. by rewrite lookup_insert in Hx.
        -- destruct (li_seen _ _ _ HI1 k lk Hk) as [[Hc E]|(d & vs0 & Hd & E & Hr)].
           ++ left. split; [set_solver|]. by rewrite Hother.
           ++ right. exists d, vs0. rewrite Hother by done. done.
      * intros k Hk. rewrite Hother by congruence. by apply (li_lat _ _ _ HI1).
      * intros k lk items [Hk| Hk]%elem_of_union Hlk Hin.
        -- apply elem_of_singleton in Hk as ->. constructor; [congruence|]. intros b Hb Hbo. eapply covered_grows; [exact Hg2|].
           apply Hcov; [done|done|]. by eapply (li_obs _ _ _ HI).
        -- eapply covered_grows; [exact Hg2|]. by eapply (li_cov _ _ _ HI1).
    + intros items Hin. constructor; [congruence|]. intros b Hb Hbo. eapply covered_grows; [exact Hg2|]. by apply Hcov.
  - apply obind_Ok in Hinc as (s & Hs%at_Ok & Hinc).
    destruct (sampled_spec n (o_vecs o s) m1 r1 m2 r2 d1 (li_I _ _ _ HI1) Hd1 Hinc) as (HI2 & Hother & d2 & Hd2 & Hsub & Hdom).
    assert (grows m1 m2) as Hg2.
    { intros k d Hk. destruct (decide (k = n)) as [->|Hne]; [|exists d; by rewrite Hother].
      rewrite Hd1 in Hk. injection Hk as <-. eauto. }
    split; [|split; [by eapply grows_trans|split; [set_solver|split; [done|]]]].
    + split; [done|apply HI1|apply HI1| | |].
      * intros k lk Hk. destruct (li_seen _ _ _ HI1 k lk Hk) as [[Hc E]|(d & vs0 & Hd & E & Hr)].
        -- left. split; [|by rewrite Hother by congruence]. apply not_elem_of_union. split; [|done]. apply not_elem_of_singleton. congruence.
        -- right. exists d, vs0. rewrite Hother by congruence. done.
      * intros k Hk. destruct (decide (k = n)) as [->|Hne]; [|rewrite Hother by done; by apply (li_lat _ _ _ HI1)].
        pose proof (li_lat _ _ _ HI1 n Hn) as HL. destruct (dat m0 n) as [d0|]; [|congruence].
        destruct HL as (d' & Hd' & Hs0 & Hk0). rewrite Hd1 in Hd'. injection Hd' as <-. exists d2. split_and!; [done|by etrans|].
        intros items Hi. apply Hdom in Hi as [Hi|Hi]; [by apply Hk0|]. right. rewrite in_o_vecs in Hi.
        pose proof (li_ri _ _ _ HI1 n items) as E. rewrite Hs, Hn in E. by apply E.
      * intros k lk items [Hk| Hk]%elem_of_union Hlk Hin.
        -- apply elem_of_singleton in Hk as ->. congruence.
        -- eapply covered_grows; [exact Hg2|]. by eapply (li_cov _ _ _ HI1).
    + intros items Hin. constructor.
      * intros _. exists d2. split; [done|]. apply Hdom. right. apply in_o_vecs. apply (Hri1 n) in Hin. by rewrite Hs in Hin.
      * intros b Hb Hbo. eapply covered_grows; [exact Hg2|]. by apply Hcov.
Qed.

Lemma loop_spec fuel names : forall m ri comp r m' ri' comp' r', load_inv m ri comp ->
  foldM (incorporate_next X parse fuel o obs n2b) (m, ri, comp, r) names = Ok (m', ri', comp', r') ->
  load_inv m' ri' comp' /\ comp ⊆ comp' /\ forall n, n ∈ names -> n ∈ comp'.
Proof.
  induction names as [|n names IH]; intros m ri comp r m' ri' comp' r' HI; cbn [foldM].
  { intros [= <- <- <- <-]. split_and!; [done|done|]. intros n Hn. by apply elem_of_nil in Hn. }
  intros H. apply obind_Ok in H as ([[[m1 ri1] comp1] r1] & H1 & H2). unfold incorporate_next in H1.
  assert (load_inv m1 ri1 comp1 /\ {[n]} ∪ comp ⊆ comp1) as [HI1 Hc1].
  { destruct (bool_decide (n ∈ comp)) eqn:Hn.
    - injection H1 as <- <- <- <-. apply bool_decide_eq_true in Hn. split; [done|set_solver].
    - destruct (incorporate_relation_spec _ _ _ _ _ _ _ _ _ _ HI H1) as (? & _ & ? & _). done. }
  destruct (IH _ _ _ _ _ _ _ _ HI1 H2) as (HI2 & Hc2 & Hall). split_and!; [done|set_solver|].
  intros k [->|Hk]%elem_of_cons; [set_solver|by apply Hall].
Qed.

Lemma covered_in m n items : covered m n items -> obs !! n = None -> exists d, dat m n = Some d /\ is_Some (d !! items).
Proof. intros []. done. Qed.
Lemma covered_up m n items b : covered m n items -> n2b !! n = Some b -> obs !! b = None -> covered m b (take (ar n) items).
Proof. intros []. eauto. Qed.

Lemma loaded_all m ri comp : load_inv m ri comp -> (forall n, is_Some (obs !! n) -> n ∈ comp) ->
  forall n, loaded parse obs (fun n => n2b !! n) ar n (dat m0 n) (dat m n).
Proof.
  intros HI Hall n. unfold loaded. destruct (obs !! n) as [l|] eqn:Hn.
  - destruct (li_seen _ _ _ HI n l Hn) as [[Hc _]|Hf]; [|exact Hf]. exfalso. apply Hc, Hall. eauto.
  - pose proof (li_lat _ _ _ HI n Hn) as HL. destruct (dat m0 n) as [d|] eqn:Hd; [|done].
    destruct HL as (d' & Hd' & Hsub & Hdom). exists d'. split_and!; [done|done|]. intros items. split; [apply Hdom|].
    intros [[x Hx]|Hneed]; [exists x; by eapply lookup_weaken|].
    assert (forall k i, need k i -> obs !! k = None -> covered m k i) as Hcov.
    { induction 1 as [k b l i v Hb Hl Hin|k b i Hb Hk Hneed' IH]; intros Hno.
      - eapply covered_up; [|exact Hb|exact Hno]. eapply (li_cov _ _ _ HI k l); [apply Hall; eauto|done|].
        apply elem_of_list_fmap. by exists (i, v).
      - eapply covered_up; [|exact Hb|exact Hno]. by apply IH. }
    destruct (covered_in m n items (Hcov n items Hneed Hn) Hn) as (d1 & Hd1 & ?). congruence.
Qed.
End PLoad.
