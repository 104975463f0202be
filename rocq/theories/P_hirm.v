(** HIRM: lemmas. *)
From Coq Require Import String Ascii.
From stdpp Require Import gmap strings sorting.
From Coq Require Import ZArith Reals Lia.
From Verif Require Import M_base M_math M_crp M_domain M_dist M_relation M_noisy M_irm M_logp M_hirm
  S_crp S_crp_state S_relation S_irm S_hirm P_base P_crp P_crp_score P_domain P_relation P_any P_irm P_irm_schema P_irm_history.

Section Generic.
Context {V : Type}.
Implicit Types (ir : irm V) (A : clustering) (ar : string -> option nat) (lk : string -> option (any_rel V)) (a : any_rel V) (t : t_rel V).

(** ** Incorporating with bases found elsewhere *)
Definition type_accepts lk t (items : items_t) (v : V) : Prop :=
  match t with
  | TClean _ _ D sp => accepts D sp v
  | TNoisy _ _ E sp base => exists ab bv, lk base = Some ab /\ any_data ab !! take (length (any_doms ab)) items = Some bv /\
      accepts (em_dist E) sp (bv, v)
  end.

Lemma irm_incorporate_Ok ar lk ir A name a obs items v r :
  irm_holds ar ir A -> lookup_arity ar lk -> i_rels ir !! name = Some a ->
  length items = length (any_doms a) -> any_data a !! items = None -> type_accepts lk (any_type a obs) items v ->
  exists st, irm_incorporate lk ir name items v r = Ok st.
Proof.
  intros Hh Hlk Ha Hl Hn Hacc. unfold irm_incorporate. rewrite Ha. cbn [at_ obind].
  pose proof (ih_rels _ _ _ Hh name a Ha) as Hah. destruct a as [D rel|n]; simpl in *.
  - destruct Hah as [L Hrel].
    destruct (rel_incorporate_spec L (i_domains ir) A rel items v r (ih_world _ _ _ Hh) Hrel Hl Hn) as (W' & A' & rel' & r' & -> & _).
    { by apply (accepts_iff D L) in Hacc. }
    simpl. eauto.
  - destruct Hah as ([L Hrel] & Hdom & k & Hk & Hkl & Hidx).
    destruct Hacc as (ab & bv & Hab & Hbv & Hacc).
    pose proof (Hlk _ _ Hab) as Har. rewrite Hk in Har. injection Har as ->.
    unfold base_of. rewrite Hab. simpl. unfold noisy_incorporate, get_base_items. simpl.
    rewrite bool_decide_eq_true_2 by lia. simpl. unfold base_get_value. simpl.
    rewrite bool_decide_eq_true_2 by (apply elem_of_dom; eauto). simpl. rewrite Hbv. simpl.
    destruct (rel_incorporate_spec L (i_domains ir) A (n_rel n) items (bv, v) r (ih_world _ _ _ Hh) Hrel Hl) as (W' & A' & rel' & r' & -> & _).
    { apply eq_None_not_Some. rewrite <- noisy_key by done. rewrite Hn. by intros [? ?]. }
    { by apply (accepts_iff _ L) in Hacc. }
    simpl. eauto.
Qed.

Lemma irm_incorporate_accepts ar lk ir A name a obs items v r st :
  irm_holds ar ir A -> lookup_arity ar lk -> i_rels ir !! name = Some a ->
  irm_incorporate lk ir name items v r = Ok st -> type_accepts lk (any_type a obs) items v.
Proof.
  intros Hh Hlk Ha H. unfold irm_incorporate in H. rewrite Ha in H. cbn [at_ obind] in H.
  apply obind_Ok in H as ([[W' a'] r'] & Hi & _).
  pose proof (ih_rels _ _ _ Hh name a Ha) as Hah. destruct a as [D rel|n]; simpl in *.
  - destruct Hah as [L Hrel]. apply obind_Ok in Hi as ([[W1 rel1] r1] & Hi & _).
    apply (accepts_iff D L). exact (proj2 (proj2 (rel_incorporate_inv L _ _ _ _ _ _ _ (ih_world _ _ _ Hh) Hrel Hi))).
  - destruct Hah as ([L Hrel] & _). apply obind_Ok in Hi as (b & Hb & Hi). apply obind_Ok in Hi as ([[W1 n1] r1] & Hi & _).
    unfold base_of in Hb. apply obind_Ok in Hb as (ab & Hab%idx_Ok & [= <-]).
    unfold noisy_incorporate in Hi. apply obind_Ok in Hi as (bi & Hbi & Hi).
    apply obind_Ok in Hi as (bv & Hbv & Hi). apply obind_Ok in Hi as ([[W1' rel1] r1'] & Hi & _).
    unfold get_base_items in Hbi. simpl in Hbi. case_bool_decide; [|done]. injection Hbi as <-.
    unfold base_get_value in Hbv. apply obind_Ok in Hbv as (u & _ & Hbv%at_Ok). simpl in Hbv.
    exists ab, bv. split_and!; try done.
    apply (accepts_iff _ L). exact (proj2 (proj2 (rel_incorporate_inv L _ _ _ _ _ _ _ (ih_world _ _ _ Hh) Hrel Hi))).
Qed.

(** Incorporating touches one relation object only. *)
Lemma irm_incorporate_other lk ir name items v r ir' r' :
  irm_incorporate lk ir name items v r = Ok (ir', r') -> forall n, n <> name -> i_rels ir' !! n = i_rels ir !! n.
Proof.
  unfold irm_incorporate. intros H n Hn. apply obind_Ok in H as (a & _ & H). apply obind_Ok in H as ([[W a'] r1] & _ & [= <- _]).
  simpl. by rewrite lookup_insert_ne.
Qed.
Lemma irm_unincorporate_other lk o ir name items ir' :
  irm_unincorporate lk o ir name items = Ok ir' -> forall n, n <> name -> i_rels ir' !! n = i_rels ir !! n.
Proof.
  unfold irm_unincorporate. intros H n Hn. apply obind_Ok in H as (a & _ & H). apply obind_Ok in H as (a' & _ & H).
  apply obind_Ok in H as (t & _ & H). case_bool_decide; [|done]. apply obind_Ok in H as (m & _ & H).
  apply obind_Ok in H as ([W m'] & _ & [= <-]). simpl. by rewrite lookup_insert_ne.
Qed.

(** ** Grounded schemas *)
Lemma grounded_mono (schema schema' : gmap string (t_rel V)) name :
  schema ⊆ schema' -> grounded schema name -> grounded schema' name.
Proof.
  intros Hs H. induction H as [name t Ht Hb|name t base Ht Hb H IH].
  - eapply grounded_clean; [by eapply lookup_weaken|done].
  - eapply grounded_noisy; [by eapply lookup_weaken|done|done].
Qed.
Lemma grounded_declared (schema : gmap string (t_rel V)) name : grounded schema name -> is_Some (schema !! name).
Proof. intros H. destruct H; eauto. Qed.
Lemma grounded_base (schema : gmap string (t_rel V)) name t b :
  grounded schema name -> schema !! name = Some t -> t_base t = Some b -> grounded schema b /\ b <> name.
Proof.
  intros H. revert t b. induction H as [name t Ht Hb|name t base Ht Hb H IH]; intros t' b Ht' Hb'.
  - congruence.
  - assert (t' = t) as -> by congruence. assert (b = base) as -> by congruence. split; [done|].
    intros ->. by destruct (IH _ _ Ht Hb).
Qed.
Lemma grounded_delete (schema : gmap string (t_rel V)) name n :
  (forall m t, schema !! m = Some t -> t_base t <> Some name) -> n <> name ->
  grounded schema n -> grounded (delete name schema) n.
Proof.
  intros Hno Hne H. induction H as [n t Ht Hb|n t base Ht Hb H IH].
  - eapply grounded_clean; [by rewrite lookup_delete_ne|done].
  - eapply grounded_noisy; [by rewrite lookup_delete_ne|done|]. apply IH. intros ->. by eapply Hno.
Qed.

(** ** Declarations and arities *)
Lemma irm_holds_mono ar ar' ir A :
  (forall n k, ar n = Some k -> ar' n = Some k) -> irm_holds ar ir A -> irm_holds ar' ir A.
Proof.
  intros H [h1 h2 h3 h4 h5 h6]. split; try done.
  - intros name a Ha. eapply any_holds_mono; [|by eapply h2]. done.
  - intros name a Ha. apply H. eauto.
Qed.
(** Names that no relation of the IRM has or is built on do not matter. *)
Lemma irm_holds_ar_used ar ar' ir A :
  (forall n a, i_rels ir !! n = Some a -> ar' n = ar n /\ forall b, any_base a = Some b -> ar' b = ar b) ->
  irm_holds ar ir A -> irm_holds ar' ir A.
Proof.
  intros H [h1 h2 h3 h4 h5 h6]. split; try done.
  - intros name a Ha. specialize (h2 name a Ha). destruct a as [D rel|n]; [done|].
    destruct h2 as (HL & Hd & k & Hk & ? & ?). simpl. split_and!; [done..|]. exists k. split_and!; try done.
    rewrite <- Hk. by apply (H _ _ Ha).
  - intros name a Ha. rewrite (proj1 (H _ _ Ha)). eauto.
Qed.
Lemma schema_arity_insert (schema : gmap string (t_rel V)) name t n k :
  schema !! name = None -> schema_arity schema n = Some k -> schema_arity (<[name := t]> schema) n = Some k.
Proof.
  unfold schema_arity. intros Hn H. destruct (decide (n = name)) as [->|].
  - by rewrite Hn in H.
  - by rewrite lookup_insert_ne.
Qed.

(** ** Entering a relation with a base found elsewhere *)
Lemma irm_add_with_base_spec ir name ds obs E sp base :
  frame_ok ir ->
  (name ∉ dom (i_rels ir) /\ ds <> [] -> exists ir', irm_add_with_base ir name ds obs E sp base = Ok ir') /\
  (forall ir', irm_add_with_base ir name ds obs E sp base = Ok ir' ->
    name ∉ dom (i_rels ir) /\ ds <> [] /\
    exists W' d2r' b2n' a, fresh_rel (TNoisy ds obs E sp base) = Ok a /\
      ir' = Irm (<[name := TNoisy ds obs E sp base]> (i_schema ir)) W' (<[name := a]> (i_rels ir)) d2r' b2n' /\
      (forall d, W' !! d = if decide (d ∈ ds) then Some (default dom_new (i_domains ir !! d)) else i_domains ir !! d) /\
      (forall d, d2r' !! d = if decide (d ∈ ds) then Some ({[name]} ∪ default ∅ (i_d2r ir !! d)) else i_d2r ir !! d)).
Proof.
  intros [Hdom Hsch]. destruct (add_domains_spec ir name ds Hdom) as (W' & d2r' & Hadd & HW & HR).
  unfold irm_add_with_base. split.
  - intros (Hn & Hne).
    assert (assert_fresh ir name = Ok tt) as ->.
    { unfold assert_fresh. rewrite Hsch, bool_decide_eq_true_2 by done. done. }
    cbn [obind]. rewrite Hadd. cbn [obind].
    unfold noisy_new, rel_new. rewrite bool_decide_eq_false_2 by done. simpl. eauto.
  - intros ir' H. apply obind_Ok in H as (u & Hu & H). rewrite Hadd in H. cbn [obind] in H.
    apply obind_Ok in H as (n & Hn & [= <-]). unfold assert_fresh in Hu.
    apply obind_Ok in Hu as (? & _ & Hu). apply assert_Ok, bool_decide_eq_true in Hu.
    assert (fresh_rel (TNoisy ds obs E sp base) = Ok (ANoisy n)) as Hf by (simpl; by rewrite Hn).
    pose proof (fresh_rel_spec _ _ Hf) as (Hne & _).
    split_and!; try done. eexists _, _, _, _. split; [exact Hf|]. split; [reflexivity|]. done.
Qed.

Lemma any_type_observed a a' o o' : any_type a o = any_type a' o -> any_type a o' = any_type a' o'.
Proof.
  set (f := fun t => match t with TClean ds _ D sp => TClean ds o' D sp | TNoisy ds _ E sp b => TNoisy ds o' E sp b end).
  intros H. apply (f_equal f) in H. by destruct a, a'.
Qed.

(** [ir'] is [ir] with one more relation, which holds [data]. *)
Record grown (ar : string -> option nat) (name : string) (t : t_rel V) (data : gmap items_t V) (ir ir' : irm V) : Prop := {
  gr_holds : exists A', irm_holds ar ir' A';
  gr_schema : i_schema ir' = <[name := t]> (i_schema ir);
  gr_other : forall n, n <> name -> i_rels ir' !! n = i_rels ir !! n;
  gr_rel : exists a, i_rels ir' !! name = Some a /\ any_data a = data /\ t = any_type a (t_observed t);
}.

(** [refill] gives the new object exactly the observations it is handed. *)
Lemma refill_loop ar lk name t data l ir r :
  lookup_arity ar lk -> NoDup l -> (forall k, k ∈ l -> is_Some (data !! k)) ->
  forall ir0 seen, grown ar name t seen ir0 ir -> (forall k, k ∈ l -> seen !! k = None) ->
  (forall ir' r', foldM (refill_step lk name data) (ir, r) l = Ok (ir', r') ->
    exists seen', grown ar name t seen' ir0 ir' /\
      (forall k, seen' !! k = if decide (k ∈ l) then data !! k else seen !! k)) /\
  ((forall k v, data !! k = Some v -> length k = length (t_domains t) /\ type_accepts lk t k v) ->
    exists st, foldM (refill_step lk name data) (ir, r) l = Ok st).
Proof.
  intros Hlk. revert ir r. induction l as [|k l IH]; intros ir r Hnd Hin ir0 seen Hg Hseen; cbn [foldM].
  { split; [|eauto]. intros ir' r' [= <- <-]. exists seen. split; [done|]. intros k. by rewrite decide_False by apply not_elem_of_nil. }
  apply NoDup_cons in Hnd as [Hkl Hnd]. destruct (Hin k) as [v Hv]; [left|].
  destruct (gr_holds _ _ _ _ _ _ Hg) as [A Hh]. destruct (gr_rel _ _ _ _ _ _ Hg) as (a & Ha & Hda & Hta).
  assert (forall ir1 r1, irm_incorporate lk ir name k v r = Ok (ir1, r1) -> grown ar name t (<[k := v]> seen) ir0 ir1) as Hstep.
  { intros ir1 r1 H1. pose proof (irm_incorporate_other _ _ _ _ _ _ _ _ H1) as Hoth.
    destruct (irm_incorporate_spec ar lk ir A name k v r ir1 r1 Hh Hlk H1) as (A1 & a1 & Hh1 & Hf1 & Ha1 & Hn1 & _ & Hd1 & _).
    rewrite Ha in Ha1. injection Ha1 as <-. split.
    - eauto.
    - destruct Hf1 as (-> & _). apply Hg.
    - intros n Hn. rewrite (Hoth n Hn). by apply (gr_other _ _ _ _ _ _ Hg).
    - assert (irm_data ir1 !! name = Some (<[k := v]> (any_data a))) as Hd by (rewrite Hd1; apply lookup_insert).
      unfold irm_data in Hd. rewrite lookup_fmap in Hd. destruct (i_rels ir1 !! name) as [a1|] eqn:Ea1; [|done].
      injection Hd as Hd. exists a1. split_and!; [done|by rewrite Hd, Hda|].
      destruct Hf1 as (_ & _ & _ & Hsh).
      destruct (shape_lookup_type _ _ name a1 Hsh Ea1) as (a0 & Ha0 & Hty). rewrite Ha in Ha0. injection Ha0 as <-.
      rewrite Hta at 1. symmetry. by apply (any_type_observed _ _ true). }
  unfold refill_step at 1 3. rewrite Hv. cbn [at_ obind]. split.
  - intros ir' r' H. apply obind_Ok in H as ([ir1 r1] & H1 & H2).
    specialize (Hstep ir1 r1 H1).
    destruct (IH ir1 r1 Hnd (fun k' Hk' => Hin k' (elem_of_list_further _ _ _ Hk')) ir0 (<[k := v]> seen) Hstep) as [IH1 _].
    { intros k' Hk'. rewrite lookup_insert_ne by (intros ->; done). apply Hseen. by right. }
    destruct (IH1 ir' r' H2) as (seen' & Hg' & Hs'). exists seen'. split; [done|]. intros k'. rewrite Hs'.
    destruct (decide (k' ∈ l)) as [Hkl'|Hkl'].
    + by rewrite decide_True by by right.
    + destruct (decide (k' = k)) as [->|Hne].
      * rewrite lookup_insert. by rewrite decide_True by left.
      * rewrite lookup_insert_ne by done. rewrite decide_False; [done|]. by intros [?|?]%elem_of_cons.
  - intros Hacc. destruct (Hacc k v Hv) as [Hl Hak].
    destruct (irm_incorporate_Ok ar lk ir A name a (t_observed t) k v r Hh Hlk Ha) as ([ir1 r1] & H1).
    { rewrite Hl, Hta. by rewrite any_type_t_domains. }
    { rewrite Hda. apply Hseen. left. }
    { by rewrite <- Hta. }
    rewrite H1. cbn [obind]. specialize (Hstep ir1 r1 H1).
    destruct (IH ir1 r1 Hnd (fun k' Hk' => Hin k' (elem_of_list_further _ _ _ Hk')) ir0 (<[k := v]> seen) Hstep) as [_ IH2].
    { intros k' Hk'. rewrite lookup_insert_ne by (intros ->; done). apply Hseen. by right. }
    by apply IH2.
Qed.

Lemma refill_spec ar lk o name t data ir ir0 r :
  lookup_arity ar lk -> orders_ok o -> grown ar name t ∅ ir0 ir ->
  (forall ir' r', refill lk o ir name data r = Ok (ir', r') -> grown ar name t data ir0 ir') /\
  ((forall k v, data !! k = Some v -> length k = length (t_domains t) /\ type_accepts lk t k v) ->
    exists st, refill lk o ir name data r = Ok st).
Proof.
  intros Hlk (Hov & _) Hg. unfold refill.
  destruct (refill_loop ar lk name t data (o_vecs o (dom data)) ir r Hlk) with (ir0 := ir0) (seen := ∅ : gmap items_t V) as [H1 H2]; try done.
  { rewrite Hov. apply NoDup_elements. }
  { intros k. by rewrite Hov, elem_of_elements, elem_of_dom. }
  split; [|done]. intros ir' r' H. destruct (H1 ir' r' H) as (seen & Hg' & Hs).
  assert (seen = data) as <-; [|done]. apply map_eq. intros k. rewrite Hs.
  destruct (decide _) as [|Hn]; [done|]. rewrite Hov, elem_of_elements, not_elem_of_dom in Hn. by rewrite lookup_empty.
Qed.
End Generic.
