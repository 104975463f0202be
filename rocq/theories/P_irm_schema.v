(** Building an IRM: adding and removing relations. *)
From Coq Require Import String Ascii.
From stdpp Require Import gmap strings sorting.
From Coq Require Import ZArith Reals Lia.
From Verif Require Import M_base M_math M_crp M_domain M_dist M_relation M_noisy M_irm
  S_crp S_crp_state S_relation S_irm
  P_base P_domain P_relation P_any P_irm P_reached.
Local Open Scope list_scope.

(** * The order of names *)
Lemma ascii_compare_trans_le (a b c : ascii) : Ascii.compare a b <> Gt -> Ascii.compare b c <> Gt -> Ascii.compare a c <> Gt.
Proof. unfold Ascii.compare. rewrite !N.compare_le_iff. lia. Qed.
Lemma ascii_compare_Eq (a b : ascii) : Ascii.compare a b = Eq <-> a = b.
Proof.
  unfold Ascii.compare. rewrite N.compare_eq_iff. split; [|by intros ->].
  intros H. rewrite <- (ascii_N_embedding a), <- (ascii_N_embedding b). by rewrite H.
Qed.
Lemma str_compare_trans (a b c : string) : String.compare a b <> Gt -> String.compare b c <> Gt -> String.compare a c <> Gt.
Proof.
  revert b c. induction a as [|x a IH]; intros [|y b] [|z c]; simpl; try done.
  destruct (Ascii.compare x y) eqn:E1; [| |done].
  - apply ascii_compare_Eq in E1 as ->. destruct (Ascii.compare y z) eqn:E2; try done. by apply IH.
  - intros _. destruct (Ascii.compare y z) eqn:E2; [| |done].
    + apply ascii_compare_Eq in E2 as ->. by rewrite E1.
    + intros _. unfold Ascii.compare in *. rewrite N.compare_lt_iff in E1, E2.
      assert (N_of_ascii x ?= N_of_ascii z = Lt)%N as -> by (rewrite N.compare_lt_iff; lia). done.
Qed.
Lemma str_compare_antisym (a b : string) : String.compare a b = CompOpp (String.compare b a).
Proof. apply String.compare_antisym. Qed.
Lemma str_le_compare (a b : string) : str_le a b <-> String.compare a b <> Gt.
Proof. unfold str_le, String.leb. destruct (String.compare a b); naive_solver. Qed.
Global Instance str_le_trans : Transitive str_le.
Proof. intros a b c. rewrite !str_le_compare. apply str_compare_trans. Qed.
Global Instance str_le_total : Total str_le.
Proof.
  intros a b. rewrite !str_le_compare, (str_compare_antisym b a).
  destruct (String.compare a b); simpl; auto; left; done.
Qed.
Lemma str_le_antisym (a b : string) : str_le a b -> str_le b a -> a = b.
Proof.
  rewrite !str_le_compare, (str_compare_antisym b a). intros H1 H2.
  destruct (String.compare a b) eqn:E; simpl in *; try done. by apply String.compare_eq_iff.
Qed.
(** [a] comes strictly before [b]. *)

Lemma sorted_names_perm {A} (m : gmap string A) : sorted_names m ≡ₚ elements (dom m).
Proof. apply merge_sort_Permutation. Qed.
Lemma elem_of_sorted_names {A} (m : gmap string A) k : k ∈ sorted_names m <-> is_Some (m !! k).
Proof. by rewrite sorted_names_perm, elem_of_elements, elem_of_dom. Qed.
Lemma NoDup_sorted_names {A} (m : gmap string A) : NoDup (sorted_names m).
Proof. rewrite sorted_names_perm. apply NoDup_elements. Qed.
Lemma StronglySorted_sorted_names {A} (m : gmap string A) : StronglySorted str_le (sorted_names m).
Proof. apply StronglySorted_merge_sort; apply _. Qed.

(** In a sorted list without repetition, what comes before [x] is what is smaller. *)
Lemma sorted_before (l1 l2 : list string) (x y : string) :
  StronglySorted str_le (l1 ++ x :: l2) -> NoDup (l1 ++ x :: l2) -> y ∈ l1 ++ x :: l2 ->
  (y ∈ l1 <-> str_lt y x).
Proof.
  intros Hs Hn Hy. split.
  - intros Hy1. split.
    + apply (elem_of_StronglySorted_app _ l1 (x :: l2)); [done|done|left].
    + intros ->. apply NoDup_app in Hn as (_ & Hd & _). apply (Hd x Hy1). left.
  - intros [Hle Hne]. apply elem_of_app in Hy as [?|Hy]; [done|].
    apply elem_of_cons in Hy as [->|Hy]; [done|]. exfalso. apply Hne. apply str_le_antisym; [done|].
    apply StronglySorted_app_inv_r in Hs. apply StronglySorted_inv in Hs as [_ Hs].
    rewrite Forall_forall in Hs. by apply Hs.
Qed.

Section Schema.
Context {V : Type}.
Implicit Types (ir : irm V) (a : any_rel V) (A : clustering) (ar : string -> option nat) (t : t_rel V).

Lemma any_type_t_domains a o : t_domains (any_type a o) = any_doms a.
Proof. by destruct a. Qed.
Lemma any_type_t_base a o : t_base (any_type a o) = any_base a.
Proof. by destruct a. Qed.

(** * Adding *)
Definition frame_ok ir : Prop := dom (i_d2r ir) = dom (i_domains ir) /\ dom (i_schema ir) = dom (i_rels ir).

Lemma add_domains_spec ir name ds :
  dom (i_d2r ir) = dom (i_domains ir) ->
  exists W' d2r', add_domains ir name ds = Ok (Irm (i_schema ir) W' (i_rels ir) d2r' (i_b2n ir)) /\
    (forall d, W' !! d = if decide (d ∈ ds) then Some (default dom_new (i_domains ir !! d)) else i_domains ir !! d) /\
    (forall d, d2r' !! d = if decide (d ∈ ds) then Some ({[name]} ∪ default ∅ (i_d2r ir !! d)) else i_d2r ir !! d).
Proof.
  revert ir. induction ds as [|d ds IH]; intros ir Hdom.
  { exists (i_domains ir), (i_d2r ir). split; [by destruct ir|]. split; intros d; by rewrite decide_False by apply not_elem_of_nil. }
  unfold add_domains. cbn [foldM].
  set (W1 := <[d := default dom_new (i_domains ir !! d)]> (i_domains ir)).
  set (R1 := <[d := {[name]} ∪ default ∅ (i_d2r ir !! d)]> (i_d2r ir)).
  match goal with |- context [obind ?m _] => assert (m = Ok (Irm (i_schema ir) W1 (i_rels ir) R1 (i_b2n ir))) as -> end.
  { case_bool_decide as Hin.
    - cbn [obind]. assert (is_Some (i_d2r ir !! d)) as [s Hs] by by rewrite <- elem_of_dom, Hdom.
      apply elem_of_dom in Hin as [dm Hdm]. rewrite Hs. cbn [at_ obind]. rewrite Hdm. cbn [at_ obind].
      unfold W1, R1. rewrite Hdm, Hs. simpl. by rewrite (insert_id (i_domains ir)) by done.
    - rewrite bool_decide_eq_true_2 by by rewrite Hdom. cbn [assert_ obind i_d2r i_domains i_schema i_rels i_b2n].
      rewrite lookup_insert. cbn [at_ obind]. rewrite lookup_insert. cbn [at_ obind].
      unfold W1, R1. rewrite insert_insert. apply not_elem_of_dom in Hin as Hn1. rewrite Hn1.
      rewrite <- Hdom in Hin. apply not_elem_of_dom in Hin as Hn2. rewrite Hn2. done. }
  cbn [obind].
  destruct (IH (Irm (i_schema ir) W1 (i_rels ir) R1 (i_b2n ir))) as (W' & d2r' & HI & HW & HR).
  { simpl. unfold W1, R1. by rewrite !dom_insert_L, Hdom. }
  unfold add_domains in HI. rewrite HI. cbn [i_schema i_rels i_b2n i_domains i_d2r] in *.
  exists W', d2r'. split; [done|]. split; intros d'.
  - rewrite HW. unfold W1. destruct (decide (d' = d)) as [->|Hne].
    + rewrite lookup_insert. rewrite (decide_True (P := d ∈ d :: ds)) by left.
      by destruct (decide _).
    + rewrite lookup_insert_ne by done. apply decide_ext. rewrite elem_of_cons. naive_solver.
  - rewrite HR. unfold R1. destruct (decide (d' = d)) as [->|Hne].
    + rewrite lookup_insert. rewrite (decide_True (P := d ∈ d :: ds)) by left.
      destruct (decide _); [|done]. simpl. f_equal. set_solver.
    + rewrite lookup_insert_ne by done. apply decide_ext. rewrite elem_of_cons. naive_solver.
Qed.

Definition clustering_grow A (ds : list string) : clustering := foldr (fun d A => <[d := default ∅ (A !! d)]> A) A ds.
Lemma grow_lookup A ds d :
  clustering_grow A ds !! d = if decide (d ∈ ds) then Some (default ∅ (A !! d)) else A !! d.
Proof.
  induction ds as [|d' ds IH].
  { by rewrite decide_False by apply not_elem_of_nil. }
  cbn [clustering_grow foldr]. fold (clustering_grow A ds). destruct (decide (d = d')) as [->|Hne].
  - rewrite lookup_insert, IH. rewrite (decide_True (P := d' ∈ d' :: ds)) by left. by destruct (decide _).
  - rewrite lookup_insert_ne, IH by done. apply decide_ext. rewrite elem_of_cons. naive_solver.
Qed.
Lemma grow_dom A ds : dom (clustering_grow A ds) = dom A ∪ list_to_set ds.
Proof.
  apply set_eq. intros d. rewrite elem_of_union, elem_of_list_to_set, !elem_of_dom, grow_lookup.
  destruct (decide (d ∈ ds)).
  - split; [by right|eauto].
  - naive_solver.
Qed.
Lemma grow_seat A ds d e : seat (clustering_grow A ds) d e = seat A d e.
Proof.
  unfold seat. rewrite grow_lookup. destruct (decide _); [|done]. destruct (A !! d); simpl; [done|apply lookup_empty].
Qed.

(** A declaration whose distribution obeys the laws. *)
(** The relation object made from a declaration holds no data. *)
Definition fresh_rel t : outcome (any_rel V) :=
  match t with
  | TClean ds _ D sp => let* rel := rel_new D ds sp in Ok (AClean D rel)
  | TNoisy ds _ E sp base => let* n := noisy_new E sp ds base in Ok (ANoisy n)
  end.
Lemma fresh_rel_spec t a : fresh_rel t = Ok a -> t_domains t <> [] /\ t = any_type a (t_observed t) /\ any_data a = ∅.
Proof.
  destruct t as [ds obs D sp|ds obs E sp base]; simpl.
  - intros H. apply obind_Ok in H as (rel & Hn & [= <-]). unfold rel_new in Hn. case_bool_decide; [done|].
    injection Hn as <-. done.
  - intros H. apply obind_Ok in H as (n & Hn & [= <-]). unfold noisy_new in Hn. apply obind_Ok in Hn as (rel & Hn & [= <-]).
    unfold rel_new in Hn. case_bool_decide; [done|]. injection Hn as <-. done.
Qed.
Lemma fresh_rel_Ok t : t_domains t <> [] -> exists a, fresh_rel t = Ok a.
Proof.
  intros H. destruct t as [ds obs D sp|ds obs E sp base]; simpl in *; unfold noisy_new, rel_new;
    rewrite bool_decide_eq_false_2 by done; simpl; eauto.
Qed.
Lemma fresh_rel_holds ar A t a :
  t_lawful t -> fresh_rel t = Ok a -> (forall d, d ∈ t_domains t -> d ∈ dom A) ->
  (forall b, t_base t = Some b -> exists k, ar b = Some k /\ k <= length (t_domains t)) -> any_holds ar A a.
Proof.
  intros HL Hf Hd Hb. destruct t as [ds obs D sp|ds obs E sp base]; simpl in *.
  - destruct HL as [L0 _]. set (L := reached_law L0). apply obind_Ok in Hf as (rel & Hn & [= <-]). exists L.
    destruct (rel_new_holds L A ds sp) as (rel' & Hn' & Hr & _); [|done|].
    { intros ->. unfold rel_new in Hn. by rewrite bool_decide_eq_true_2 in Hn. }
    rewrite Hn in Hn'. by injection Hn' as ->.
  - apply obind_Ok in Hf as (n & Hn & [= <-]). unfold noisy_new in Hn. apply obind_Ok in Hn as (rel & Hn & [= <-]).
    destruct HL as [L0 _]. set (L := reached_law L0). destruct (rel_new_holds L A ds sp) as (rel' & Hn' & Hr & Hdt & Hds); [|done|].
    { intros ->. unfold rel_new in Hn. by rewrite bool_decide_eq_true_2 in Hn. }
    rewrite Hn in Hn'. injection Hn' as ->. simpl. split_and!; [by exists L|by rewrite Hdt, fmap_empty|].
    destruct (Hb base eq_refl) as (k & Hk & Hkl). exists k. rewrite Hds. split_and!; [done|done|].
    intros bi items. rewrite !lookup_empty. simpl. split; [set_solver|]. intros [[? ?] _]. done.
Qed.

(** Entering a fresh relation. *)
Lemma enter_holds ar ar' ir A name t a W' d2r' b2n' :
  irm_holds ar ir A -> name ∉ dom (i_rels ir) -> t_lawful t -> fresh_rel t = Ok a ->
  (forall n k, ar n = Some k -> ar' n = Some k) -> ar' name = Some (length (t_domains t)) ->
  (forall b, t_base t = Some b -> exists k, ar' b = Some k /\ k <= length (t_domains t)) ->
  (forall d, W' !! d = if decide (d ∈ t_domains t) then Some (default dom_new (i_domains ir !! d)) else i_domains ir !! d) ->
  (forall d, d2r' !! d = if decide (d ∈ t_domains t) then Some ({[name]} ∪ default ∅ (i_d2r ir !! d)) else i_d2r ir !! d) ->
  irm_holds ar' (Irm (<[name := t]> (i_schema ir)) W' (<[name := a]> (i_rels ir)) d2r' b2n') (clustering_grow A (t_domains t)).
Proof.
  intros Hh Hn HL Hf Hmono Har Hb HW HR. pose proof (fresh_rel_spec t a Hf) as (Hne & Ht & Hdata).
  assert (any_doms a = t_domains t) as Hda by (rewrite Ht; by rewrite any_type_t_domains).
  apply not_elem_of_dom in Hn. pose proof Hh as [Hw Hr Ha Hs Hu Hd]. split; simpl.
  - intros d. rewrite HW, grow_lookup. specialize (Hw d). destruct (decide _); [|done].
    destruct (i_domains ir !! d), (A !! d); simpl; try done. apply domain_holds_new.
  - intros n' b Hb'. destruct (decide (n' = name)) as [->|Hne'].
    + rewrite lookup_insert in Hb'. injection Hb' as <-. eapply fresh_rel_holds; [done|done| |done].
      intros d Hd'. rewrite grow_dom. set_solver.
    + rewrite lookup_insert_ne in Hb' by done. eapply any_holds_mono; [exact Hmono|].
      eapply any_holds_ext; [| |by eapply Hr].
      * intros d Hd'. rewrite grow_dom. apply elem_of_union_l. eapply any_holds_dom; [by eapply Hr|done].
      * intros d e _. apply grow_seat.
  - intros n' b Hb'. destruct (decide (n' = name)) as [->|Hne'].
    + rewrite lookup_insert in Hb'. injection Hb' as <-. by rewrite Hda.
    + rewrite lookup_insert_ne in Hb' by done. eauto.
  - intros n'. destruct (decide (n' = name)) as [->|Hne'].
    + by rewrite !lookup_insert.
    + rewrite !lookup_insert_ne by done. apply Hs.
  - intros d. rewrite grow_dom, elem_of_union, elem_of_list_to_set, Hu. split.
    + intros [(n' & b & Hb' & Hd')|Hd'].
      * exists n', b. split; [|done]. rewrite lookup_insert_ne; [done|]. intros ->. congruence.
      * exists name, a. by rewrite lookup_insert, Hda.
    + intros (n' & b & Hb' & Hd'). destruct (decide (n' = name)) as [->|Hne'].
      * rewrite lookup_insert in Hb'. injection Hb' as <-. right. by rewrite <- Hda.
      * rewrite lookup_insert_ne in Hb' by done. left. eauto.
  - intros d. rewrite HR. specialize (Hd d).
    assert (d ∈ dom (clustering_grow A (t_domains t)) <-> d ∈ dom A \/ d ∈ t_domains t) as Hgd.
    { by rewrite grow_dom, elem_of_union, elem_of_list_to_set. }
    assert (forall n', (exists b, <[name:=a]> (i_rels ir) !! n' = Some b /\ d ∈ any_doms b) <->
              n' = name /\ d ∈ t_domains t \/ exists b, i_rels ir !! n' = Some b /\ d ∈ any_doms b) as Hex.
    { intros n'. destruct (decide (n' = name)) as [->|Hne'].
      - rewrite lookup_insert. split.
        + intros (b & [= <-] & Hb'). left. by rewrite <- Hda.
        + intros [[_ Hd']|(b & Hb' & _)]; [|congruence]. exists a. by rewrite Hda.
      - rewrite lookup_insert_ne by done. naive_solver. }
    destruct (decide (d ∈ t_domains t)) as [Hin|Hin].
    + split; [apply Hgd; by right|]. intros n'. rewrite Hex, elem_of_union, elem_of_singleton.
      destruct (i_d2r ir !! d) as [s|]; simpl.
      * destruct Hd as [_ Hd]. rewrite Hd. naive_solver.
      * split; [set_solver|]. intros [[-> _]|(b & Hb' & Hd')]; [by left|]. exfalso. apply Hd. apply Hu. eauto.
    + destruct (i_d2r ir !! d) as [s|].
      * destruct Hd as [Hd1 Hd]. split; [apply Hgd; by left|]. intros n'. rewrite Hex, Hd. naive_solver.
      * rewrite Hgd. intros [?|?]; done.
Qed.

Lemma frame_of_holds ar ir A : irm_holds ar ir A -> frame_ok ir.
Proof.
  intros Hh. split; apply set_eq; intros x; rewrite !elem_of_dom.
  - pose proof (ih_d2r _ _ _ Hh x) as H. pose proof (ih_world _ _ _ Hh x) as Hw.
    destruct (i_d2r ir !! x) as [s|].
    + destruct H as [H _]. apply elem_of_dom in H as [a Ha]. rewrite Ha in Hw. destruct (i_domains ir !! x); [|done]. split; eauto.
    + apply not_elem_of_dom in H. rewrite H in Hw. destruct (i_domains ir !! x); [done|]. split; by intros [? ?].
  - pose proof (ih_schema _ _ _ Hh x) as H. destruct (i_schema ir !! x), (i_rels ir !! x); try done; split; try (by intros [? ?]); eauto.
Qed.

(** [add_relation] goes through exactly for a new name, at least one domain and a base already present. *)
Lemma irm_add_spec ir name t :
  frame_ok ir ->
  (name ∉ dom (i_rels ir) /\ t_domains t <> [] /\ (forall b, t_base t = Some b -> b ∈ dom (i_rels ir)) ->
    exists ir', irm_add_relation ir name t = Ok ir') /\
  (forall ir', irm_add_relation ir name t = Ok ir' ->
    name ∉ dom (i_rels ir) /\ t_domains t <> [] /\ (forall b, t_base t = Some b -> b ∈ dom (i_rels ir)) /\
    exists W' d2r' b2n' a, fresh_rel t = Ok a /\
      ir' = Irm (<[name := t]> (i_schema ir)) W' (<[name := a]> (i_rels ir)) d2r' b2n' /\
      (forall d, W' !! d = if decide (d ∈ t_domains t) then Some (default dom_new (i_domains ir !! d)) else i_domains ir !! d) /\
      (forall d, d2r' !! d = if decide (d ∈ t_domains t) then Some ({[name]} ∪ default ∅ (i_d2r ir !! d)) else i_d2r ir !! d)).
Proof.
  intros [Hdom Hsch]. destruct (add_domains_spec ir name (t_domains t) Hdom) as (W' & d2r' & Hadd & HW & HR).
  split.
  - intros (Hn & Hne & Hb). unfold irm_add_relation.
    assert (assert_fresh ir name = Ok tt) as Hfr.
    { unfold assert_fresh. rewrite Hsch, bool_decide_eq_true_2 by done. done. }
    destruct t as [ds obs D sp|ds obs E sp base]; simpl in *.
    + unfold irm_add_clean. rewrite Hfr. cbn [obind]. rewrite Hadd. cbn [obind].
      unfold rel_new. rewrite bool_decide_eq_false_2 by done. simpl. eauto.
    + unfold irm_add_noisy. rewrite Hfr. cbn [obind]. rewrite Hadd. cbn [obind i_rels].
      specialize (Hb base eq_refl). apply elem_of_dom in Hb as [ab Hab]. rewrite Hab. cbn [obind].
      unfold noisy_new, rel_new. rewrite bool_decide_eq_false_2 by done. simpl. eauto.
  - intros ir' H. destruct t as [ds obs D sp|ds obs E sp base]; simpl in *.
    + unfold irm_add_clean in H. apply obind_Ok in H as (u & Hu & H). rewrite Hadd in H. cbn [obind] in H.
      apply obind_Ok in H as (rel & Hrel & [= <-]). unfold assert_fresh in Hu.
      apply obind_Ok in Hu as (? & _ & Hu). apply assert_Ok, bool_decide_eq_true in Hu.
      assert (fresh_rel (TClean ds obs D sp) = Ok (AClean D rel)) as Hf by (simpl; by rewrite Hrel).
      pose proof (fresh_rel_spec _ _ Hf) as (Hne & _).
      split_and!; try done. eexists _, _, _, _. split; [by rewrite Hrel|]. split; [reflexivity|]. done.
    + unfold irm_add_noisy in H. apply obind_Ok in H as (u & Hu & H). rewrite Hadd in H. cbn [obind i_rels i_schema] in H.
      apply obind_Ok in H as (? & Hb & H). apply obind_Ok in H as (n & Hn & [= <-]). unfold assert_fresh in Hu.
      apply obind_Ok in Hu as (? & _ & Hu). apply assert_Ok, bool_decide_eq_true in Hu.
      assert (fresh_rel (TNoisy ds obs E sp base) = Ok (ANoisy n)) as Hf by (simpl; by rewrite Hn).
      pose proof (fresh_rel_spec _ _ Hf) as (Hne & _).
      split_and!; try done.
      { intros b [= <-]. apply elem_of_dom. destruct (i_rels ir !! base); [eauto|]. by destruct (i_schema ir !! base). }
      eexists _, _, _, _. split; [by rewrite Hn|]. split; [reflexivity|]. done.
Qed.

Lemma frame_ok_add ir name t ir' : frame_ok ir -> irm_add_relation ir name t = Ok ir' ->
  frame_ok ir' /\ dom (i_rels ir') = {[name]} ∪ dom (i_rels ir) /\ i_schema ir' = <[name := t]> (i_schema ir).
Proof.
  intros Hf H. destruct (proj2 (irm_add_spec ir name t Hf) ir' H) as (_ & _ & _ & W' & d2r' & b2n' & a & _ & -> & HW & HR).
  destruct Hf as [Hd Hs]. split; [|simpl; by rewrite dom_insert_L]. split; simpl.
  - apply set_eq. intros d. rewrite !elem_of_dom, HW, HR. destruct (decide _); [split; eauto|].
    by rewrite <- !elem_of_dom, Hd.
  - by rewrite !dom_insert_L, Hs.
Qed.

(** * The constructor *)
Lemma irm_new_loop (schema : gmap string (t_rel V)) (l : list string) ir :
  frame_ok ir -> NoDup l -> (forall n, n ∈ l -> n ∉ dom (i_rels ir)) -> (forall n, n ∈ l -> is_Some (schema !! n)) ->
  let run := foldM (fun ir name => let* t := at_ (schema !! name) in irm_add_relation ir name t) ir l in
  ((exists ir', run = Ok ir') <->
   forall l1 name l2 t, l = l1 ++ name :: l2 -> schema !! name = Some t ->
     t_domains t <> [] /\ forall b, t_base t = Some b -> b ∈ dom (i_rels ir) \/ b ∈ l1) /\
  (forall ir', run = Ok ir' -> frame_ok ir').
Proof.
  revert ir. induction l as [|name l IH]; intros ir Hf Hnd Hnew Hsome run; unfold run; cbn [foldM].
  { split; [|by intros ir' [= <-]]. split; [|eauto]. intros _ l1 n l2 t Heq. by destruct l1. }
  destruct (Hsome name) as [t Ht]; [left|]. rewrite Ht. cbn [at_ obind].
  apply NoDup_cons in Hnd as [Hnl Hnd].
  assert (name ∉ dom (i_rels ir)) as Hnn by (apply Hnew; left).
  pose proof (irm_add_spec ir name t Hf) as [Hadd1 Hadd2].
  destruct (irm_add_relation ir name t) as [ir1| | | | |] eqn:Eadd; cbn [obind].
  2-6: split; [|done]; (split; [by intros [? ?]|]); intros H;
    exfalso; destruct (H [] name l t eq_refl Ht) as [Hne Hb];
    (destruct Hadd1 as [? ?]; [|done]); split_and!; try done;
    intros b Hb'; destruct (Hb b Hb') as [?|Hbl]; [done|by apply elem_of_nil in Hbl].
  destruct (frame_ok_add ir name t ir1 Hf Eadd) as (Hf1 & Hd1 & _).
  destruct (Hadd2 ir1 eq_refl) as (_ & Hne & Hb & _).
  destruct (IH ir1 Hf1 Hnd) as [IH1 IH2].
  { intros n Hn. rewrite Hd1, not_elem_of_union, not_elem_of_singleton. split; [by intros ->|]. apply Hnew. by right. }
  { intros n Hn. apply Hsome. by right. }
  split; [|done]. rewrite IH1. split.
  - intros H l1 n l2 t' Heq Ht'. destruct l1 as [|n1 l1]; injection Heq as -> ->.
    + rewrite Ht in Ht'. injection Ht' as <-. split; [done|]. intros b Hb'. left. by apply Hb.
    + destruct (H l1 n l2 t' eq_refl Ht') as [Hne' Hb']. split; [done|]. intros b Hbb.
      destruct (Hb' b Hbb) as [Hin|Hin]; [|right; by right].
      rewrite Hd1, elem_of_union, elem_of_singleton in Hin. destruct Hin as [->|?]; [right; left|by left].
  - intros H l1 n l2 t' -> Ht'. destruct (H (name :: l1) n l2 t' eq_refl Ht') as [Hne' Hb']. split; [done|].
    intros b Hbb. rewrite Hd1, elem_of_union, elem_of_singleton.
    destruct (Hb' b Hbb) as [?|Hin]; [by left; right|]. apply elem_of_cons in Hin as [->|?]; [by left; left|by right].
Qed.

Lemma frame_ok_empty : frame_ok (irm_empty : irm V).
Proof. split; simpl; by rewrite !dom_empty_L. Qed.

Lemma irm_new_iff (schema : gmap string (t_rel V)) :
  (exists ir, irm_new schema = Ok ir) <->
  forall name t, schema !! name = Some t ->
    t_domains t <> [] /\ forall b, t_base t = Some b -> is_Some (schema !! b) /\ str_lt b name.
Proof.
  destruct (irm_new_loop schema (sorted_names schema) irm_empty frame_ok_empty (NoDup_sorted_names schema)) as [Hrun Hfr].
  { intros n _. simpl. by rewrite dom_empty_L. }
  { intros n. apply elem_of_sorted_names. }
  unfold irm_new. match goal with H : (_ <-> ?Q) |- _ => set (Q0 := Q) in H; assert (Q0 <->
    forall name t, schema !! name = Some t ->
    t_domains t <> [] /\ forall b, t_base t = Some b -> is_Some (schema !! b) /\ str_lt b name) as HQ end.
  { unfold Q0. simpl. rewrite dom_empty_L. split.
    - intros H name t Ht. assert (name ∈ sorted_names schema) as Hin by (apply elem_of_sorted_names; eauto).
      apply elem_of_list_split in Hin as (l1 & l2 & Hl). destruct (H l1 name l2 t Hl Ht) as [Hne Hb].
      split; [done|]. intros b Hbb. destruct (Hb b Hbb) as [Hin|Hin]; [set_solver|].
      assert (b ∈ sorted_names schema) as Hbs by (rewrite Hl; set_solver).
      split; [by apply elem_of_sorted_names|]. apply (sorted_before l1 l2 name b); rewrite <- ?Hl; auto.
      + apply StronglySorted_sorted_names.
      + apply NoDup_sorted_names.
    - intros H l1 name l2 t Hl Ht. destruct (H name t Ht) as [Hne Hb]. split; [done|]. intros b Hbb.
      destruct (Hb b Hbb) as [Hs Hlt]. right. apply (sorted_before l1 l2 name b); rewrite <- ?Hl; auto.
      + apply StronglySorted_sorted_names.
      + apply NoDup_sorted_names.
      + by apply elem_of_sorted_names. }
  rewrite <- HQ, <- Hrun. split.
  - intros [ir H]. apply obind_Ok in H as (ir1 & H & _). eauto.
  - intros [ir H]. rewrite H. cbn [obind]. destruct (Hfr ir H) as [_ Hd].
    rewrite bool_decide_eq_true_2; [eauto|]. rewrite <- !size_dom. by rewrite Hd.
Qed.

(** All declarations obey the laws and no base has more domains than the noisy relation over it. *)
Lemma irm_holds_empty ar : irm_holds ar (irm_empty : irm V) ∅.
Proof.
  split; simpl.
  - intros d. by rewrite !lookup_empty.
  - intros name a. by rewrite lookup_empty.
  - intros name a. by rewrite lookup_empty.
  - intros name. by rewrite !lookup_empty.
  - intros d. split; [set_solver|]. intros (name & a & Ha & _). by rewrite lookup_empty in Ha.
  - intros d. rewrite lookup_empty. set_solver.
Qed.

Lemma irm_holds_ar_ext ar ar' ir A :
  (forall n, ar n = ar' n) -> irm_holds ar ir A -> irm_holds ar' ir A.
Proof.
  intros H [h1 h2 h3 h4 h5 h6]. split; try done.
  - intros name a Ha. eapply any_holds_mono; [|by eapply h2]. intros n k. by rewrite H.
  - intros name a Ha. rewrite <- H. eauto.
Qed.

Lemma irm_add_holds ir A name t ir' :
  irm_holds (schema_arity (i_schema ir)) ir A -> t_lawful t ->
  (forall b tb, t_base t = Some b -> i_schema ir !! b = Some tb -> length (t_domains tb) <= length (t_domains t)) ->
  irm_add_relation ir name t = Ok ir' ->
  exists a, fresh_rel t = Ok a /\ i_rels ir' = <[name := a]> (i_rels ir) /\ i_schema ir' = <[name := t]> (i_schema ir) /\
  irm_holds (schema_arity (i_schema ir')) ir' (clustering_grow A (t_domains t)).
Proof.
  intros Hh HL Har H. pose proof (frame_of_holds _ _ _ Hh) as Hf.
  destruct (proj2 (irm_add_spec ir name t Hf) ir' H) as (Hn & Hne & Hb & W' & d2r' & b2n' & a & Hfr & -> & HW & HR).
  exists a. split_and!; [done|done|done|]. simpl. assert (name ∉ dom (i_schema ir)) as Hns by (destruct Hf as [_ ->]; done).
  apply not_elem_of_dom in Hns.
  apply (enter_holds (schema_arity (i_schema ir))); try done.
  - intros n k. unfold schema_arity. destruct (decide (n = name)) as [->|].
    + rewrite Hns. done.
    + by rewrite lookup_insert_ne.
  - unfold schema_arity. by rewrite lookup_insert.
  - intros b Hbb. specialize (Hb b Hbb). destruct Hf as [_ Hfs]. rewrite <- Hfs in Hb. apply elem_of_dom in Hb as [tb Htb].
    exists (length (t_domains tb)). split; [|by eapply Har]. unfold schema_arity.
    rewrite lookup_insert_ne by (intros ->; congruence). by rewrite Htb.
Qed.

Lemma irm_new_holds (schema : gmap string (t_rel V)) ir :
  schema_lawful schema -> irm_new schema = Ok ir ->
  exists A, irm_holds (schema_arity (i_schema ir)) ir A /\ i_schema ir = schema /\
    (forall d e, seat A d e = None) /\ (forall name a, i_rels ir !! name = Some a -> any_data a = ∅).
Proof.
  intros HL H. unfold irm_new in H. apply obind_Ok in H as (ir1 & H & H1). apply obind_Ok in H1 as (_ & _ & [= <-]).
  assert (forall l ir0 A0, irm_holds (schema_arity (i_schema ir0)) ir0 A0 ->
    (forall d e, seat A0 d e = None) -> (forall name a, i_rels ir0 !! name = Some a -> any_data a = ∅) ->
    i_schema ir0 ⊆ schema ->
    foldM (fun ir name => let* t := at_ (schema !! name) in irm_add_relation ir name t) ir0 l = Ok ir1 ->
    exists A, irm_holds (schema_arity (i_schema ir1)) ir1 A /\ i_schema ir1 ⊆ schema /\
      dom (i_schema ir1) = dom (i_schema ir0) ∪ list_to_set l /\
      (forall d e, seat A d e = None) /\ (forall name a, i_rels ir1 !! name = Some a -> any_data a = ∅)) as Hloop.
  { clear H. induction l as [|name l IH]; intros ir0 A0 Hh Hs Hd Hsub H; cbn [foldM] in H.
    { injection H as <-. exists A0. split_and!; try done. set_solver. }
    apply obind_Ok in H as (ir2 & H2 & H). apply obind_Ok in H2 as (t & Ht%at_Ok & H2).
    destruct (HL name t Ht) as [HLt Hlen].
    destruct (irm_add_holds ir0 A0 name t ir2 Hh HLt) as (a & Hfr & Hr2 & Hs2 & Hh2); [|done|].
    { intros b tb Hb Htb. eapply Hlen; [done|]. by eapply lookup_weaken. }
    destruct (IH ir2 _ Hh2) as (A & HA & Hsub' & Hdom & HS & HD); [| | |done|].
    - intros d e. by rewrite grow_seat.
    - intros n b. rewrite Hr2. destruct (decide (n = name)) as [->|].
      + rewrite lookup_insert. intros [= <-]. by apply fresh_rel_spec in Hfr as (_ & _ & ?).
      + rewrite lookup_insert_ne by done. by apply Hd.
    - rewrite Hs2. by apply insert_subseteq_l.
    - exists A. split_and!; try done. rewrite Hdom, Hs2, dom_insert_L. set_solver. }
  destruct (Hloop (sorted_names schema) irm_empty ∅) as (A & HA & Hsub & Hdom & HS & HD).
  - simpl. apply irm_holds_empty.
  - intros d e. unfold seat. by rewrite lookup_empty.
  - intros name a. simpl. by rewrite lookup_empty.
  - simpl. apply map_empty_subseteq.
  - done.
  - exists A. split_and!; try done. apply map_eq. intros n.
    destruct (i_schema ir1 !! n) as [t|] eqn:En.
    + symmetry. by eapply lookup_weaken.
    + destruct (schema !! n) as [t|] eqn:Es; [|done]. exfalso.
      apply not_elem_of_dom in En. apply En. rewrite Hdom. simpl. rewrite dom_empty_L.
      apply elem_of_union_r, elem_of_list_to_set, elem_of_sorted_names. eauto.
Qed.

(** * Removing a relation *)
Local Definition remove_step (name : string) (ir : irm V) (d : string) : outcome (irm V) :=
    let* s := at_ (i_d2r ir !! d) in
    let s' := s ∖ {[name]} in
    if bool_decide (s' = ∅) then
      let* _ := at_ (i_domains ir !! d) in
      Ok (Irm (i_schema ir) (delete d (i_domains ir)) (i_rels ir) (delete d (i_d2r ir)) (i_b2n ir))
    else Ok (Irm (i_schema ir) (i_domains ir) (i_rels ir) (<[d := s']> (i_d2r ir)) (i_b2n ir)).
Lemma remove_domains_loop ir name ds :
  NoDup ds -> dom (i_d2r ir) = dom (i_domains ir) -> (forall d, d ∈ ds -> is_Some (i_d2r ir !! d)) ->
  exists W' d2r', foldM (remove_step name) ir ds =
    Ok (Irm (i_schema ir) W' (i_rels ir) d2r' (i_b2n ir)) /\
    (forall d, W' !! d = if decide (d ∈ ds /\ default ∅ (i_d2r ir !! d) ∖ {[name]} = ∅) then None else i_domains ir !! d) /\
    (forall d, d2r' !! d = if decide (d ∈ ds /\ default ∅ (i_d2r ir !! d) ∖ {[name]} = ∅) then None
                           else if decide (d ∈ ds) then Some (default ∅ (i_d2r ir !! d) ∖ {[name]}) else i_d2r ir !! d).
Proof.
  revert ir. induction ds as [|d ds IH]; intros ir Hnd Hdom Hs.
  { exists (i_domains ir), (i_d2r ir). split; [by destruct ir|].
    split; intros d; rewrite decide_False by (intros [Hd _]; by apply elem_of_nil in Hd); [done|].
    by rewrite decide_False by apply not_elem_of_nil. }
  apply NoDup_cons in Hnd as [Hni Hnd]. destruct (Hs d) as [s Hds]; [left|]. cbn [foldM].
  unfold remove_step at 1. rewrite Hds. cbn [at_ obind].
  assert (is_Some (i_domains ir !! d)) as [dm Hdm] by (rewrite <- elem_of_dom, <- Hdom, elem_of_dom; eauto).
  case_bool_decide as He.
  - rewrite Hdm. cbn [at_ obind].
    destruct (IH (Irm (i_schema ir) (delete d (i_domains ir)) (i_rels ir) (delete d (i_d2r ir)) (i_b2n ir)) Hnd)
      as (W' & d2r' & -> & HW & HR).
    { simpl. by rewrite !dom_delete_L, Hdom. }
    { intros d' Hd'. simpl. rewrite lookup_delete_ne by (intros ->; done). apply Hs. by right. }
    cbn [i_schema i_rels i_b2n i_domains i_d2r] in *. exists W', d2r'. split; [done|]. split; intros d'.
    + rewrite HW. destruct (decide (d' = d)) as [->|Hne].
      * rewrite (decide_True (P := d ∈ d :: ds /\ _)) by (rewrite Hds; split; [left|done]).
        rewrite decide_False by naive_solver. apply lookup_delete.
      * rewrite !lookup_delete_ne by done. apply decide_ext. rewrite elem_of_cons. naive_solver.
    + rewrite HR. destruct (decide (d' = d)) as [->|Hne].
      * rewrite (decide_True (P := d ∈ d :: ds /\ _)) by (rewrite Hds; split; [left|done]).
        rewrite decide_False by naive_solver. rewrite decide_False by done. apply lookup_delete.
      * rewrite !lookup_delete_ne by done.
        rewrite (decide_ext (d' ∈ ds) (d' ∈ d :: ds)) by (rewrite elem_of_cons; naive_solver).
        apply decide_ext. rewrite elem_of_cons. naive_solver.
  - cbn [obind]. destruct (IH (Irm (i_schema ir) (i_domains ir) (i_rels ir) (<[d := s ∖ {[name]}]> (i_d2r ir)) (i_b2n ir)) Hnd)
      as (W' & d2r' & -> & HW & HR).
    { simpl. rewrite dom_insert_L, Hdom. apply set_eq. intros x. rewrite elem_of_union, elem_of_singleton.
      split; [|by right]. intros [->|?]; [apply elem_of_dom; eauto|done]. }
    { intros d' Hd'. simpl. rewrite lookup_insert_ne by (intros ->; done). apply Hs. by right. }
    cbn [i_schema i_rels i_b2n i_domains i_d2r] in *. exists W', d2r'. split; [done|]. split; intros d'.
    + rewrite HW. destruct (decide (d' = d)) as [->|Hne].
      * rewrite !decide_False; [done| |naive_solver]. rewrite Hds. naive_solver.
      * rewrite lookup_insert_ne by done. apply decide_ext. rewrite elem_of_cons. naive_solver.
    + rewrite HR. destruct (decide (d' = d)) as [->|Hne].
      * rewrite decide_False by naive_solver. rewrite decide_False by done.
        rewrite decide_False by (rewrite Hds; naive_solver). rewrite decide_True by left.
        rewrite lookup_insert, Hds. done.
      * rewrite !lookup_insert_ne by done.
        rewrite (decide_ext (d' ∈ ds) (d' ∈ d :: ds)) by (rewrite elem_of_cons; naive_solver).
        apply decide_ext. rewrite elem_of_cons. naive_solver.
Qed.

(** Domains no other relation uses disappear; all remaining entities keep their clusters. *)
Lemma irm_remove_spec ar o ir A name a :
  irm_holds ar ir A -> orders_ok o -> i_rels ir !! name = Some a ->
  exists ir' A', irm_remove_relation o ir name = Ok ir' /\ irm_holds ar ir' A' /\
    i_rels ir' = delete name (i_rels ir) /\ i_schema ir' = delete name (i_schema ir) /\
    (forall d, d ∈ dom A' <-> exists n b, i_rels ir' !! n = Some b /\ d ∈ any_doms b) /\
    (forall d e, d ∈ dom A' -> seat A' d e = seat A d e).
Proof.
  intros Hh Ho Ha. unfold irm_remove_relation. rewrite Ha. cbn [at_ obind].
  pose proof (frame_of_holds _ _ _ Hh) as [Hfd Hfs].
  set (ds := o_names o (list_to_set (any_doms a))).
  assert (forall d, d ∈ ds <-> d ∈ any_doms a) as Hds.
  { intros d. unfold ds. destruct Ho as (_ & _ & Hon & _). by rewrite Hon, elem_of_elements, elem_of_list_to_set. }
  assert (forall d, match i_d2r ir !! d with
     | Some s => d ∈ dom A /\ forall n, n ∈ s <-> exists a, i_rels ir !! n = Some a /\ d ∈ any_doms a
     | None => d ∉ dom A end) as Hd2 by apply Hh.
  destruct (remove_domains_loop ir name ds) as (W' & d2r' & Hloop & HW & HR).
  { unfold ds. destruct Ho as (_ & _ & Hon & _). rewrite Hon. apply NoDup_elements. }
  { done. }
  { intros d Hd. apply Hds in Hd. specialize (Hd2 d). destruct (i_d2r ir !! d); [eauto|]. exfalso. apply Hd2.
    eapply any_holds_dom; [|exact Hd]. by eapply ih_rels. }
  match goal with |- context [foldM ?f ir _] => change (foldM f ir _) with (foldM (remove_step name) ir ds) end.
  rewrite Hloop. cbn [obind i_schema i_domains i_rels i_d2r i_b2n].
  set (used := fun d => exists n b, delete name (i_rels ir) !! n = Some b /\ d ∈ any_doms b).
  assert (forall d, (d ∈ ds /\ default ∅ (i_d2r ir !! d) ∖ {[name]} = ∅) <-> d ∈ dom A /\ ~ used d) as Hgone.
  { intros d. rewrite Hds. split.
    - intros [Hd He]. assert (d ∈ dom A) as HdA by (eapply any_holds_dom; [|exact Hd]; by eapply ih_rels).
      split; [done|]. intros (n & b & Hb & Hdb). apply lookup_delete_Some in Hb as [Hne Hb].
      specialize (Hd2 d). destruct (i_d2r ir !! d) as [s|]; [|done]. destruct Hd2 as [_ Hs]. simpl in He.
      assert (n ∈ s ∖ {[name]}) as Hin by (apply elem_of_difference; split; [apply Hs; eauto|set_solver]).
      rewrite He in Hin. set_solver.
    - intros [HdA Hu]. pose proof (proj1 (ih_used _ _ _ Hh d) HdA) as (n & b & Hb & Hdb).
      assert (n = name) as -> by (destruct (decide (n = name)); [done|]; exfalso; apply Hu; exists n, b; by rewrite lookup_delete_ne).
      rewrite Ha in Hb. injection Hb as <-. split; [done|]. specialize (Hd2 d).
      destruct (i_d2r ir !! d) as [s|]; simpl; [|set_solver]. destruct Hd2 as [_ Hs].
      apply set_eq. intros n. rewrite elem_of_difference, elem_of_singleton. split; [|set_solver].
      intros [Hn Hne]. apply Hs in Hn as (b & Hb & Hdb'). exfalso. apply Hu. exists n, b. by rewrite lookup_delete_ne. }
  set (A' := filter (fun p : string * gmap Z Z => map_Exists (fun _ b => p.1 ∈ any_doms b) (delete name (i_rels ir))) A).
  assert (forall d, A' !! d = if decide (d ∈ ds /\ default ∅ (i_d2r ir !! d) ∖ {[name]} = ∅) then None else A !! d) as HA'.
  { intros d. unfold A'. destruct (decide _) as [Hg|Hg].
    - apply Hgone in Hg as [_ Hg]. apply map_filter_lookup_None. right. intros x _ (n & b & Hb). apply Hg. by exists n, b.
    - rewrite Hgone in Hg. destruct (A !! d) as [x|] eqn:Ed; [|by apply map_filter_lookup_None; left].
      apply map_filter_lookup_Some. split; [done|]. simpl.
      destruct (decide (map_Exists (fun _ b => d ∈ any_doms b) (delete name (i_rels ir)))) as [|Hne]; [done|].
      exfalso. apply Hg. split; [apply elem_of_dom; eauto|]. intros (n & b & Hb). apply Hne. by exists n, b. }
  assert (forall d, d ∈ dom A' <-> used d) as HdA'.
  { intros d. rewrite elem_of_dom, HA'. destruct (decide _) as [Hg|Hg].
    - apply Hgone in Hg as [_ Hg]. split; [by intros [? ?]|done].
    - rewrite Hgone in Hg. rewrite <- elem_of_dom. split.
      + intros HdA. destruct (decide (map_Exists (fun _ b => d ∈ any_doms b) (delete name (i_rels ir)))) as [(n & b & Hb)|Hne].
        * by exists n, b.
        * exfalso. apply Hg. split; [done|]. intros (n & b & Hb). apply Hne. by exists n, b.
      + intros (n & b & Hb & Hdb). apply lookup_delete_Some in Hb as [_ Hb]. apply (ih_used _ _ _ Hh). eauto. }
  eexists _, A'. split; [done|]. split.
  { split; simpl.
    - intros d. rewrite HW, HA'. destruct (decide _); [done|]. apply Hh.
    - intros n b Hb. apply lookup_delete_Some in Hb as Hb'. destruct Hb' as [Hne Hb']. eapply any_holds_ext; [| |by eapply ih_rels].
      + intros d Hd. apply HdA'. by exists n, b.
      + intros d e Hm. unfold seat. rewrite HA', decide_False; [done|]. rewrite Hgone. intros [_ Hu]. apply Hu.
        exists n, b. split; [done|]. by eapply any_mentions_doms.
    - intros n b Hb. apply lookup_delete_Some in Hb as [_ Hb]. by eapply ih_arity.
    - intros n. destruct (decide (n = name)) as [->|].
      + by rewrite !lookup_delete.
      + rewrite !lookup_delete_ne by done. apply Hh.
    - intros d. by rewrite HdA'.
    - intros d. rewrite HR. pose proof (HdA' d) as HdAd. pose proof (Hgone d) as Hg. specialize (Hd2 d). destruct (decide (_ /\ _)) as [Hg'|Hg'].
      { rewrite HdAd. by apply Hg in Hg' as [_ ?]. }
      assert (forall n, (exists b, delete name (i_rels ir) !! n = Some b /\ d ∈ any_doms b) <->
                n <> name /\ exists b, i_rels ir !! n = Some b /\ d ∈ any_doms b) as Hdel.
      { intros n. destruct (decide (n = name)) as [->|].
        - rewrite lookup_delete. naive_solver.
        - rewrite lookup_delete_ne by done. naive_solver. }
      destruct (decide (d ∈ ds)) as [Hin|Hin].
      + assert (d ∈ dom A) as HdA by (eapply any_holds_dom; [by eapply ih_rels|by apply Hds]).
        destruct (i_d2r ir !! d) as [s|]; [|done]. destruct Hd2 as [_ Hs]. simpl in *. split.
        * apply HdAd. destruct (decide (map_Exists (fun _ b => d ∈ any_doms b) (delete name (i_rels ir)))) as [(n & b & Hb)|Hne].
          { by exists n, b. }
          exfalso. apply Hg'. apply Hg. split; [done|]. intros (n & b & Hb). apply Hne. by exists n, b.
        * intros n. rewrite Hdel, elem_of_difference, elem_of_singleton, Hs. naive_solver.
      + destruct (i_d2r ir !! d) as [s|].
        * destruct Hd2 as [HdA Hs]. split.
          { apply HdAd. apply (ih_used _ _ _ Hh) in HdA as (n & b & Hb & Hdb). exists n, b. split; [|done].
            rewrite lookup_delete_ne; [done|]. intros <-. rewrite Ha in Hb. injection Hb as <-. by apply Hin, Hds. }
          intros n. rewrite Hdel, Hs. split; [|naive_solver]. intros (b & Hb & Hdb). split; [|eauto].
          intros ->. rewrite Ha in Hb. injection Hb as <-. by apply Hin, Hds.
        * rewrite HdAd. intros (n & b & Hb & Hdb). apply lookup_delete_Some in Hb as [_ Hb]. apply Hd2, (ih_used _ _ _ Hh). eauto. }
  split_and!; [done|done|exact HdA'|]. intros d e Hd. unfold seat. rewrite HA', decide_False; [done|].
  rewrite Hgone. intros [_ Hu]. by apply Hu, HdA'.
Qed.
End Schema.
