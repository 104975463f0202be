From stdpp Require Import gmap strings sorting.
From Coq Require Import ZArith Reals Lra Lia.
From Verif Require Import M_base M_crp M_domain M_dist M_relation S_crp S_crp_state S_relation
  P_base P_crp P_domain.

(** ** Values of a block *)
Section Values.
  Context {V : Type}.
  Implicit Types (g : items_t -> option (list Z)) (data : gmap items_t V).

  Lemma values_in_insert g data k v z :
    data !! k = None ->
    values_in g (<[k := v]> data) z ≡ₚ
      if decide (g k = Some z) then v :: values_in g data z else values_in g data z.
  Proof.
    intros Hk. unfold values_in. rewrite (map_to_list_insert data k v Hk).
    rewrite filter_cons. destruct (decide (g (k, v).1 = Some z)) as [E|E]; simpl in E.
    - by rewrite decide_True.
    - by rewrite decide_False.
  Qed.

  Lemma values_in_delete g data k v z :
    data !! k = Some v ->
    values_in g data z ≡ₚ
      if decide (g k = Some z) then v :: values_in g (delete k data) z else values_in g (delete k data) z.
  Proof.
    intros Hk. rewrite <- (insert_delete data k v Hk) at 1.
    by rewrite values_in_insert by apply lookup_delete.
  Qed.

  Lemma values_in_ext g g' data z :
    (forall k, is_Some (data !! k) -> g k = g' k) -> values_in g data z = values_in g' data z.
  Proof.
    intros Hg. unfold values_in. f_equal.
    assert (forall p, p ∈ map_to_list data -> g p.1 = g' p.1) as Hp.
    { intros [k v] Hin. apply elem_of_map_to_list in Hin. apply Hg. eauto. }
    revert Hp. generalize (map_to_list data) as l. clear.
    induction l as [|p l IH]; intros Hp; [done|].
    rewrite !filter_cons. rewrite (Hp p) by left. rewrite IH; [done|]. intros q Hq. apply Hp. by right.
  Qed.

  Lemma values_in_Forall g data z (P : V -> Prop) :
    (forall k v, data !! k = Some v -> P v) -> Forall P (values_in g data z).
  Proof.
    intros HP. unfold values_in. apply Forall_fmap, Forall_forall. intros [k v] Hin.
    apply elem_of_list_filter in Hin as [_ Hin%elem_of_map_to_list]. simpl. eauto.
  Qed.

  Lemma values_in_nil g data z :
    values_in g data z = [] <-> forall k v, data !! k = Some v -> g k <> Some z.
  Proof.
    unfold values_in. split.
    - intros H%fmap_nil_inv k v Hk Hg.
      assert ((k, v) ∈ filter (fun p : items_t * V => g p.1 = Some z) (map_to_list data)) as Hin.
      { apply elem_of_list_filter. split; [done|]. by apply elem_of_map_to_list. }
      rewrite H in Hin. by apply elem_of_nil in Hin.
    - intros H. destruct (filter _ _) as [|[k v] l] eqn:E; [done|].
      assert ((k, v) ∈ filter (fun p : items_t * V => g p.1 = Some z) (map_to_list data)) as Hin.
      { rewrite E. left. }
      apply elem_of_list_filter in Hin as [Hg Hin%elem_of_map_to_list]. by destruct (H k v Hin).
  Qed.

  Lemma values_in_empty g z : values_in g (∅ : gmap items_t V) z = [].
  Proof. apply values_in_nil. intros k v. by rewrite lookup_empty. Qed.
End Values.

(** ** Blocks *)
Section Blocks.
  Context {V : Type} {D : Dist V} (L : lawful D).
  Implicit Types (g : items_t -> option (list Z)) (data : gmap items_t V).

  Definition block_state (h : law_hyp L) (l : list V) : option (d_state D) :=
    match l with [] => None | v :: l' => Some (law_of L h (v :: l')) end.

  Lemma block_state_perm h l l' : l ≡ₚ l' -> block_state h l = block_state h l'.
  Proof.
    intros Hp. destruct l as [|v l], l' as [|v' l'].
    - done.
    - by apply Permutation_nil_cons in Hp.
    - symmetry in Hp. by apply Permutation_nil_cons in Hp.
    - unfold block_state. by rewrite (law_perm D L _ _ _ Hp).
  Qed.

  Lemma blocks_hold_alt hh g data cl :
    blocks_hold L hh g data cl <-> forall z, cl !! z = block_state (hh z) (values_in g data z).
  Proof. done. Qed.

  Lemma blocks_ext hh hh' g g' data cl :
    blocks_hold L hh g data cl ->
    (forall k, is_Some (data !! k) -> g k = g' k) ->
    (forall z, is_Some (cl !! z) -> hh z = hh' z) ->
    blocks_hold L hh' g' data cl.
  Proof.
    intros H Hg Hh z. rewrite <- (values_in_ext g g' data z Hg), (H z).
    destruct (values_in g data z) eqn:E; [done|].
    rewrite Hh; [done|]. rewrite (H z), E. eauto.
  Qed.

  Lemma blocks_remove hh g data cl k v z :
    blocks_hold L hh g data cl -> (forall k v, data !! k = Some v -> law_adm L v) ->
    data !! k = Some v -> g k = Some z ->
    exists cl', remove_from_cluster D cl z v = Ok cl' /\ blocks_hold L hh g (delete k data) cl' /\
      (forall z', is_Some (cl' !! z') -> is_Some (cl !! z')).
  Proof.
    intros H Hadm Hk Hg. unfold remove_from_cluster.
    pose proof (values_in_delete g data k v z Hk) as Hp. rewrite decide_True in Hp by done.
    rewrite (proj1 (blocks_hold_alt _ _ _ _) H z), (block_state_perm _ _ _ Hp).
    set (l := values_in g (delete k data) z) in *. simpl.
    rewrite law_uninc.
    2:{ rewrite <- Hp. by apply values_in_Forall. }
    simpl. rewrite (law_N_zero D L).
    eexists. split; [done|].
    assert (forall z', z' <> z -> cl !! z' = block_state (hh z') (values_in g (delete k data) z')) as Hne.
    { intros z' Hz. rewrite (proj1 (blocks_hold_alt _ _ _ _) H z'). apply block_state_perm.
      rewrite (values_in_delete g data k v z' Hk). rewrite decide_False by congruence. done. }
    split.
    - intros z'. destruct (decide (z' = z)) as [->|Hz].
      + fold l. destruct l as [|w l'] eqn:El.
        * rewrite bool_decide_eq_true_2 by done. apply lookup_delete.
        * rewrite bool_decide_eq_false_2 by done. apply lookup_insert.
      + specialize (Hne z' Hz). change (match values_in g (delete k data) z' with
          | [] => None | v0 :: l0 => Some (law_of L (hh z') (v0 :: l0)) end)
          with (block_state (hh z') (values_in g (delete k data) z')).
        rewrite <- Hne. destruct (bool_decide _); [by rewrite lookup_delete_ne|by rewrite lookup_insert_ne].
    - intros z'. destruct (decide (z' = z)) as [->|Hz].
      + intros _. rewrite (proj1 (blocks_hold_alt _ _ _ _) H z), (block_state_perm _ _ _ Hp). simpl. eauto.
      + destruct (bool_decide _); [by rewrite lookup_delete_ne|by rewrite lookup_insert_ne].
  Qed.

  Lemma blocks_add hh g data cl k v z h0 :
    blocks_hold L hh g data cl -> (forall k v, data !! k = Some v -> law_adm L v) ->
    data !! k = None -> g k = Some z -> law_adm L v ->
    (forall c, cl !! z = Some c -> d_N_pos D c = true) /\
    exists c', d_inc D (default (law_of L h0 []) (cl !! z)) v = Ok c' /\
      let hh' := match cl !! z with Some _ => hh | None => fun z' => if decide (z' = z) then h0 else hh z' end in
      blocks_hold L hh' g (<[k := v]> data) (<[z := c']> cl).
  Proof.
    intros H Hadm Hk Hg Hv.
    pose proof (values_in_insert g data k v z Hk) as Hp. rewrite decide_True in Hp by done.
    rewrite (proj1 (blocks_hold_alt _ _ _ _) H z).
    assert (forall z', z' <> z -> cl !! z' = block_state (hh z') (values_in g (<[k := v]> data) z')) as Hne.
    { intros z' Hz. rewrite (proj1 (blocks_hold_alt _ _ _ _) H z'). apply block_state_perm.
      rewrite (values_in_insert g data k v z' Hk). rewrite decide_False by congruence. done. }
    set (l := values_in g data z) in *.
    assert (Forall (law_adm L) l) as Hl by by apply values_in_Forall.
    split.
    { intros c. destruct l; [done|]. simpl. intros [= <-]. rewrite (law_N_pos D L). by apply bool_decide_eq_true_2. }
    destruct l as [|w l'] eqn:El; simpl.
    - exists (law_of L h0 [v]). split; [by apply law_inc|].
      intros z'. fold (block_state ((fun z' => if decide (z' = z) then h0 else hh z') z') (values_in g (<[k := v]> data) z')).
      destruct (decide (z' = z)) as [->|Hz].
      + rewrite lookup_insert. rewrite (block_state_perm _ _ _ Hp). simpl. by rewrite decide_True.
      + rewrite lookup_insert_ne by done. rewrite Hne by done. simpl. by rewrite decide_False.
    - exists (law_of L (hh z) (v :: w :: l')). split; [by apply law_inc|].
      intros z'. fold (block_state (hh z') (values_in g (<[k := v]> data) z')).
      destruct (decide (z' = z)) as [->|Hz].
      + rewrite lookup_insert. symmetry. by rewrite (block_state_perm _ _ _ Hp).
      + rewrite lookup_insert_ne by done. by rewrite Hne.
  Qed.
End Blocks.

(** ** Clusterings *)
Lemma block_of_Some A ds items z :
  block_of A ds items = Some z <->
  length items = length ds /\ mapM (fun p => seat A p.1 p.2) (zip ds items) = Some z.
Proof. unfold block_of. destruct (decide _); naive_solver. Qed.

Lemma block_of_is_Some A ds items :
  is_Some (block_of A ds items) <->
  length items = length ds /\ forall d e, mentions ds items d e -> is_Some (seat A d e).
Proof.
  unfold block_of, mentions. destruct (decide _) as [Hl|Hl]; [|split; [by intros [? ?]|naive_solver]].
  rewrite mapM_is_Some, Forall_forall. split.
  - intros H. split; [done|]. intros d e Hin. apply (H (d, e) Hin).
  - intros [_ H] [d e] Hin. by apply H.
Qed.

Lemma block_of_ext A A' ds items :
  (forall d e, mentions ds items d e -> seat A d e = seat A' d e) ->
  block_of A ds items = block_of A' ds items.
Proof.
  intros H. unfold block_of, mentions in *. destruct (decide _) as [_|_]; [|done].
  revert H. generalize (zip ds items). induction l as [|[d e] l IH]; intros H; [done|]. simpl.
  rewrite (H d e) by left. rewrite IH; [done|]. intros d' e' Hin. apply H. by right.
Qed.

Lemma seat_move A d e t d' e' :
  seat (clustering_move A d e t) d' e' =
    if decide (d' = d /\ e' = e /\ d ∈ dom A) then Some t else seat A d' e'.
Proof.
  unfold seat, clustering_move. destruct (decide (d' = d)) as [->|Hd].
  - rewrite lookup_alter. destruct (A !! d) as [a|] eqn:E; simpl.
    + assert (d ∈ dom A) by (apply elem_of_dom; eauto).
      destruct (decide (e' = e)) as [->|He].
      * rewrite lookup_insert, decide_True by done. done.
      * rewrite lookup_insert_ne, decide_False by naive_solver. done.
    + rewrite decide_False; [done|]. intros (_ & _ & Hd). apply elem_of_dom in Hd as [? ?]. congruence.
  - rewrite lookup_alter_ne by done. rewrite decide_False by naive_solver. done.
Qed.

Lemma seat_dom A d e t : seat A d e = Some t -> d ∈ dom A.
Proof. unfold seat. intros H. apply elem_of_dom. destruct (A !! d); [eauto|done]. Qed.

Lemma dom_clustering_move A d e t : dom (clustering_move A d e t) = dom A.
Proof. apply set_eq. intros x. unfold clustering_move. by rewrite dom_alter_L. Qed.

Lemma world_holds_lookup W A d e t :
  world_holds W A -> seat A d e = Some t ->
  exists dm a, W !! d = Some dm /\ A !! d = Some a /\ domain_holds dm a /\ a !! e = Some t.
Proof.
  intros HW Hs. specialize (HW d). unfold seat in Hs. destruct (A !! d) as [a|]; [|done].
  destruct (W !! d) as [dm|]; [|done]. eauto 6.
Qed.

Lemma world_holds_dom W A d : world_holds W A -> d ∈ dom A ->
  exists dm a, W !! d = Some dm /\ A !! d = Some a /\ domain_holds dm a.
Proof.
  intros HW [a Ha]%elem_of_dom. specialize (HW d). rewrite Ha in HW.
  destruct (W !! d) as [dm|]; [|done]. eauto 6.
Qed.

Lemma world_holds_insert W A d dm a :
  world_holds W A -> domain_holds dm a -> world_holds (<[d := dm]> W) (<[d := a]> A).
Proof.
  intros HW Hd d'. destruct (decide (d' = d)) as [->|Hne].
  - by rewrite !lookup_insert.
  - rewrite !lookup_insert_ne by done. apply HW.
Qed.

Lemma clustering_extends_refl A P : clustering_extends A A P.
Proof. split; [done|]. split; [done|]. auto. Qed.

Section Assign.
  Context (W : world) (A : clustering) (HW : world_holds W A).

  Lemma world_get_cluster d e t : seat A d e = Some t ->
    exists dm, deref W d = Ok dm /\ dom_get_cluster dm e = Ok t.
  Proof.
    intros Hs. destruct (world_holds_lookup W A d e t HW Hs) as (dm & a & HWd & HAd & Hh & Ha).
    exists dm. unfold deref. rewrite HWd. split; [done|].
    by rewrite (dom_get_cluster_spec dm a e Hh), Ha.
  Qed.

  Lemma world_get_cluster_inv d e dm t :
    deref W d = Ok dm -> dom_get_cluster dm e = Ok t -> seat A d e = Some t.
  Proof.
    unfold deref. intros Hd Ht. apply idx_Ok in Hd. specialize (HW d). rewrite Hd in HW.
    unfold seat. destruct (A !! d) as [a|]; [|done]. simpl.
    rewrite (dom_get_cluster_spec dm a e HW) in Ht. destruct (a !! e); congruence.
  Qed.

  Lemma assignment_loop_Ok ds es z : length es = length ds ->
    assignment_loop W ds es = Ok z <-> mapM (fun p => seat A p.1 p.2) (zip ds es) = Some z.
  Proof.
    revert es z. induction ds as [|d ds IH]; intros [|e es] z Hl; simpl in *; try done.
    { split; intros [= <-]; done. }
    injection Hl as Hl. split.
    - intros Hz. apply obind_Ok in Hz as (dm & Hd & Hz). apply obind_Ok in Hz as (t & Ht & Hz).
      apply obind_Ok in Hz as (ts & Hts & [= <-]). apply IH in Hts; [|done].
      rewrite (world_get_cluster_inv _ _ _ _ Hd Ht). simpl. by rewrite Hts.
    - destruct (seat A d e) as [t|] eqn:Es; [|done]. simpl.
      destruct (mapM _ _) as [ts|] eqn:Em; [|done]. simpl. intros [= <-].
      destruct (world_get_cluster d e t Es) as (dm & -> & Hc). simpl. rewrite Hc. simpl.
      apply IH in Em; [|done]. by rewrite Em.
  Qed.

  Lemma get_cluster_assignment_Ok {V} {D : Dist V} (rel : relation D) items z :
    get_cluster_assignment D W rel items = Ok z <-> block_of A (r_doms rel) items = Some z.
  Proof.
    unfold get_cluster_assignment. rewrite block_of_Some. case_bool_decide as Hl.
    - rewrite assignment_loop_Ok by done. naive_solver.
    - naive_solver.
  Qed.

  Lemma assignment_gibbs_loop_Ok ds es d0 e0 t0 :
    length es = length ds -> (forall d e, (d, e) ∈ zip ds es -> is_Some (seat A d e)) ->
    exists z hits, assignment_gibbs_loop W ds es d0 e0 t0 = Ok (z, hits) /\
      mapM (fun p => seat (clustering_move A d0 e0 t0) p.1 p.2) (zip ds es) = Some z /\
      ((d0, e0) ∈ zip ds es <-> 0 < hits).
  Proof.
    revert es. induction ds as [|d ds IH]; intros [|e es] Hl Hin; simpl in *; try done.
    { exists [], 0. split; [done|]. split; [done|]. split; [by intros ?%elem_of_nil|lia]. }
    injection Hl as Hl.
    destruct (IH es Hl) as (z & hits & Hz & Hm & Hh). { intros d' e' Hi. apply Hin. by right. }
    destruct (Hin d e) as [t Ht]; [left|].
    case_bool_decide as Heq.
    - destruct Heq as [-> ->]. rewrite Hz. simpl. eexists _, _. split; [done|].
      rewrite seat_move, decide_True by eauto using seat_dom. simpl. rewrite Hm. simpl.
      split; [done|]. split; [lia|left].
    - destruct (world_get_cluster d e t Ht) as (dm & -> & Hc). simpl. rewrite Hc. simpl. rewrite Hz. simpl.
      eexists _, _. split; [done|]. rewrite seat_move, decide_False by naive_solver.
      rewrite Ht. simpl. rewrite Hm. split; [done|]. rewrite elem_of_cons. rewrite <- Hh. naive_solver.
  Qed.

  Lemma get_cluster_assignment_gibbs_Ok {V} {D : Dist V} (rel : relation D) items d0 e0 t0 :
    is_Some (block_of A (r_doms rel) items) -> mentions (r_doms rel) items d0 e0 ->
    exists z, get_cluster_assignment_gibbs D W rel items d0 e0 t0 = Ok z /\
      block_of (clustering_move A d0 e0 t0) (r_doms rel) items = Some z.
  Proof.
    rewrite block_of_is_Some. intros [Hl Hin] Hm. unfold get_cluster_assignment_gibbs.
    rewrite bool_decide_eq_true_2 by done. simpl.
    destruct (assignment_gibbs_loop_Ok (r_doms rel) items d0 e0 t0 Hl Hin) as (z & hits & -> & Hz & Hh).
    simpl. rewrite bool_decide_eq_true_2 by by apply Hh. simpl. exists z. split; [done|].
    by apply block_of_Some.
  Qed.
End Assign.

(** ** The reverse index *)
Section Index.
  Context {V : Type} (ds : list string).
  Implicit Types (data : gmap items_t V).

  Lemma elem_of_observations data d e items :
    items ∈ observations_of ds data d e <-> is_Some (data !! items) /\ mentions ds items d e.
  Proof. unfold observations_of. rewrite elem_of_filter, elem_of_dom. naive_solver. Qed.

  Lemma observations_insert data k v d e :
    observations_of ds (<[k := v]> data) d e =
      if decide (mentions ds k d e) then {[k]} ∪ observations_of ds data d e else observations_of ds data d e.
  Proof.
    apply set_eq. intros x. rewrite elem_of_observations, lookup_insert_is_Some.
    destruct (decide (mentions ds k d e)).
    - rewrite elem_of_union, elem_of_singleton, elem_of_observations.
      split; [intros [[->|[? ?]] ?]; auto|]. intros [->|[? ?]]; [auto|].
      split; [|done]. destruct (decide (k = x)); auto.
    - rewrite elem_of_observations. split.
      + intros [[->|[? ?]] ?]; [done|auto].
      + intros [? ?]. split; [|done]. destruct (decide (k = x)); auto.
  Qed.

  Lemma observations_delete data k d e :
    observations_of ds (delete k data) d e = observations_of ds data d e ∖ {[k]}.
  Proof.
    apply set_eq. intros x. rewrite elem_of_difference, !elem_of_observations, lookup_delete_is_Some,
      elem_of_singleton. naive_solver.
  Qed.

  Lemma observations_same_dom data data' d e :
    dom data = dom data' -> observations_of ds data d e = observations_of ds data' d e.
  Proof. unfold observations_of. by intros ->. Qed.

  Lemma index_holds_same_dom data data' idx :
    dom data = dom data' -> index_holds ds data idx -> index_holds ds data' idx.
  Proof.
    intros Hd H d. specialize (H d). destruct (idx !! d) as [m|]; [|done].
    destruct H as [Hin H]. split; [done|]. intros e.
    rewrite <- (observations_same_dom data data' d e Hd). apply H.
  Qed.

  Lemma mentions_dom items d e : mentions ds items d e -> d ∈ ds.
  Proof. unfold mentions. intros H. by apply elem_of_zip_l in H. Qed.

  Lemma index_holds_empty (data := ∅ : gmap items_t V) :
    index_holds ds data (foldr (fun d m => <[d := ∅]> m) ∅ ds).
  Proof.
    intros d. induction ds as [|d' ds' IH]; simpl.
    - rewrite lookup_empty. apply not_elem_of_nil.
    - assert (forall dl e, observations_of dl data d e = ∅) as Hobs.
      { intros dl e. apply set_eq. intros x. unfold observations_of, data.
        rewrite elem_of_filter, dom_empty_L. set_solver. }
      destruct (decide (d' = d)) as [->|Hne].
      + rewrite lookup_insert. split; [left|]. intros e. rewrite decide_True by apply Hobs. done.
      + rewrite lookup_insert_ne by done. destruct (foldr _ _ _ !! d) as [m|].
        * destruct IH as [Hin IH]. split; [by right|]. intros e. specialize (IH e).
          rewrite decide_True by apply Hobs. by rewrite decide_True in IH by apply Hobs.
        * rewrite not_elem_of_cons. auto.
  Qed.
End Index.

Lemma incorporate_loop_spec W A idx ds es items r :
  world_holds W A -> (forall d, d ∈ ds -> d ∈ dom A) -> (forall d, d ∈ ds -> is_Some (idx !! d)) ->
  length es = length ds ->
  exists W' idx' r' A', incorporate_loop W idx ds es items r = Ok (W', idx', r') /\
    world_holds W' A' /\ clustering_extends A A' (zip ds es) /\
    (forall d e, (d, e) ∈ zip ds es -> is_Some (seat A' d e)) /\
    (forall d, match idx !! d with
               | None => idx' !! d = None
               | Some m => exists m', idx' !! d = Some m' /\ forall e, m' !! e =
                   if decide ((d, e) ∈ zip ds es) then Some ({[items]} ∪ default ∅ (m !! e)) else m !! e
               end).
Proof.
  revert W A idx es r. induction ds as [|d ds IH]; intros W A idx [|e es] r HW HA Hidx Hl; simpl in *; try done.
  { eexists _, _, _, A. split; [done|]. split; [done|]. split; [apply clustering_extends_refl|].
    split; [by intros d e ?%elem_of_nil|]. intros d. destruct (idx !! d) as [m|]; [|done].
    exists m. split; [done|]. intros e. done. }
  injection Hl as Hl.
  destruct (world_holds_dom W A d HW) as (dm & a & HWd & HAd & Hh); [apply HA; left|].
  unfold deref at 1. rewrite HWd. simpl.
  assert (exists dm' r' a', dom_incorporate dm e (-1) r = Ok (dm', r') /\ domain_holds dm' a' /\
    is_Some (a' !! e) /\ (forall e' t, a !! e' = Some t -> a' !! e' = Some t) /\
    (forall e', is_Some (a' !! e') -> is_Some (a !! e') \/ e' = e)) as (dm' & r' & a' & Hinc & Hh' & Hae & Hsub & Honly).
  { destruct (a !! e) as [t|] eqn:Ea.
    - exists dm, r, a. split; [apply (dom_incorporate_known dm a); eauto|]. split; [done|]. split; [eauto|]. auto.
    - destruct (dom_incorporate_new dm a e (-1) r Hh Ea) as (dm' & t & r' & Hi & Hh' & _).
      exists dm', r', (<[e := t]> a). split; [done|]. split; [done|].
      split; [rewrite lookup_insert; eauto|]. split.
      + intros e' t' He'. rewrite lookup_insert_ne by congruence. done.
      + intros e'. rewrite lookup_insert_is_Some. naive_solver. }
  rewrite Hinc. simpl.
  destruct (Hidx d) as [m Hm]; [left|]. rewrite Hm. simpl.
  set (idx1 := <[d := <[e := {[items]} ∪ default ∅ (m !! e)]> m]> idx).
  assert (forall d' e', seat (<[d := a']> A) d' e' = if decide (d' = d) then a' !! e' else seat A d' e') as Hseat.
  { intros d' e'. unfold seat. destruct (decide (d' = d)) as [->|]; [by rewrite lookup_insert|by rewrite lookup_insert_ne]. }
  destruct (IH (<[d := dm']> W) (<[d := a']> A) idx1 es r') as (W' & idx' & r'' & A' & Hloop & HW' & Hext & Hall & Hidx').
  - by apply world_holds_insert.
  - intros d' Hd'. rewrite dom_insert_L. apply elem_of_union_r. apply HA. by right.
  - intros d' Hd'. unfold idx1. apply lookup_insert_is_Some'. right. apply Hidx. by right.
  - done.
  - exists W', idx', r'', A'. split; [done|]. split; [done|].
    destruct Hext as (Hdom & Hkeep & Hnew).
    split; [split; [|split]|split].
    + rewrite Hdom, dom_insert_L. assert (d ∈ dom A) by (apply HA; left). set_solver.
    + intros d' e' t' Hs. apply Hkeep. rewrite Hseat. destruct (decide (d' = d)) as [->|]; [|done].
      apply Hsub. unfold seat in Hs. by rewrite HAd in Hs.
    + intros d' e' Hs. apply Hnew in Hs as [Hs|Hs]; [|right; by right].
      rewrite Hseat in Hs. destruct (decide (d' = d)) as [->|]; [|by left].
      apply Honly in Hs as [Hs| ->]; [left; unfold seat; by rewrite HAd|right; left].
    + intros d' e' [[= -> ->]|Hin]%elem_of_cons; [|by apply Hall].
      destruct Hae as [t Ht]. exists t. apply Hkeep. rewrite Hseat, decide_True; done.
    + intros d'. specialize (Hidx' d'). unfold idx1 in Hidx'. destruct (decide (d' = d)) as [->|Hne].
      * rewrite lookup_insert in Hidx'. rewrite Hm. destruct Hidx' as (m' & Hm' & Hlk). exists m'. split; [done|].
        intros e'. rewrite Hlk. destruct (decide (e' = e)) as [->|Hee].
        -- rewrite (decide_True (P := (d, e) ∈ (d, e) :: zip ds es)) by left. rewrite lookup_insert. simpl.
           destruct (decide _); [|done]. f_equal. set_solver.
        -- rewrite !lookup_insert_ne by done. destruct (decide ((d, e') ∈ zip ds es)) as [Hi|Hi].
           ++ rewrite decide_True by by right. done.
           ++ rewrite decide_False; [done|]. rewrite elem_of_cons. naive_solver.
      * rewrite lookup_insert_ne in Hidx' by done. destruct (idx !! d') as [md|]; [|done].
        destruct Hidx' as (m' & Hm' & Hlk). exists m'. split; [done|]. intros e'. rewrite Hlk.
        destruct (decide ((d', e') ∈ zip ds es)) as [Hi|Hi].
        -- rewrite decide_True by by right. done.
        -- rewrite decide_False; [done|]. rewrite elem_of_cons. naive_solver.
Qed.

Lemma cleanup_loop_spec idx ds es items :
  (forall d, d ∈ ds -> is_Some (idx !! d)) -> length es = length ds ->
  exists idx', cleanup_loop idx ds es items = Ok idx' /\
    (forall d, match idx !! d with
               | None => idx' !! d = None
               | Some m => exists m', idx' !! d = Some m' /\ forall e, m' !! e =
                   if decide ((d, e) ∈ zip ds es) then
                     match m !! e with
                     | None => None
                     | Some s => if decide (s ∖ {[items]} = ∅) then None else Some (s ∖ {[items]})
                     end
                   else m !! e
               end).
Proof.
  revert idx es. induction ds as [|d ds IH]; intros idx [|e es] Hidx Hl; simpl in *; try done.
  { eexists. split; [done|]. intros d. destruct (idx !! d) as [m|]; [|done].
    exists m. split; [done|]. intros e. done. }
  injection Hl as Hl. destruct (Hidx d) as [m Hm]; [left|]. rewrite Hm. simpl.
  set (m1 := match m !! e with None => m | Some s => _ end).
  assert (forall e', m1 !! e' = if decide (e' = e) then
     match m !! e with None => None | Some s => if decide (s ∖ {[items]} = ∅) then None else Some (s ∖ {[items]}) end
     else m !! e') as Hm1.
  { intros e'. unfold m1. destruct (decide (e' = e)) as [->|Hne].
    - destruct (m !! e) as [s|] eqn:Es; [|done]. case_bool_decide.
      + rewrite lookup_delete, decide_True; done.
      + rewrite lookup_insert, decide_False; done.
    - destruct (m !! e) as [s|] eqn:Es; [|done]. case_bool_decide.
      + by rewrite lookup_delete_ne.
      + by rewrite lookup_insert_ne. }
  destruct (IH (<[d := m1]> idx) es) as (idx' & Hloop & Hidx').
  { intros d' Hd'. apply lookup_insert_is_Some'. right. apply Hidx. by right. }
  { done. }
  exists idx'. split; [done|]. intros d'. specialize (Hidx' d'). destruct (decide (d' = d)) as [->|Hne].
  - rewrite lookup_insert in Hidx'. rewrite Hm. destruct Hidx' as (m' & Hm' & Hlk). exists m'. split; [done|].
    intros e'. rewrite Hlk, Hm1. destruct (decide (e' = e)) as [->|Hee].
    + rewrite (decide_True (P := (d, e) ∈ (d, e) :: zip ds es)) by left.
      destruct (decide _); [|done]. destruct (m !! e) as [s|]; [|done].
      destruct (decide (s ∖ {[items]} = ∅)) as [Hs|Hs]; [done|].
      assert (s ∖ {[items]} ∖ {[items]} = s ∖ {[items]}) as -> by set_solver. by rewrite decide_False.
    + destruct (decide ((d, e') ∈ zip ds es)) as [Hi|Hi].
      * rewrite decide_True by by right. done.
      * rewrite decide_False; [done|]. rewrite elem_of_cons. naive_solver.
  - rewrite lookup_insert_ne in Hidx' by done. destruct (idx !! d') as [md|]; [|done].
    destruct Hidx' as (m' & Hm' & Hlk). exists m'. split; [done|]. intros e'. rewrite Hlk.
    destruct (decide ((d', e') ∈ zip ds es)) as [Hi|Hi].
    + rewrite decide_True by by right. done.
    + rewrite decide_False; [done|]. rewrite elem_of_cons. naive_solver.
Qed.

(** ** Operations *)
Lemma block_of_extends A A' P ds items :
  clustering_extends A A' P -> is_Some (block_of A ds items) -> block_of A ds items = block_of A' ds items.
Proof.
  intros (_ & Hk & _) H. apply block_of_is_Some in H as [_ H]. apply block_of_ext.
  intros d e Hm. destruct (H d e Hm) as [t Ht]. rewrite Ht. symmetry. by apply Hk.
Qed.

Section Ops.
  Context {V : Type} {D : Dist V} (L : lawful D).
  Implicit Types (rel : relation D).

  Lemma rel_holds_extend A A' P rel :
    clustering_extends A A' P -> rel_holds L A rel -> rel_holds L A' rel.
  Proof.
    intros Hext [Hd Hk Hi [hh Hb]]. split.
    - intros d Hin. destruct Hext as [-> _]. auto.
    - intros items v Hv. destruct (Hk items v Hv) as [Hs Ha]. split; [|done].
      by rewrite <- (block_of_extends A A' P).
    - done.
    - exists hh. eapply blocks_ext; [done| |done].
      intros k [v Hv]. destruct (Hk k v Hv) as [Hs _]. by eapply block_of_extends.
  Qed.

  Lemma rel_new_holds A ds spec :
    ds <> [] -> (forall d, d ∈ ds -> d ∈ dom A) ->
    exists rel, rel_new D ds spec = Ok rel /\ rel_holds L A rel /\ r_data rel = ∅ /\ r_doms rel = ds.
  Proof.
    intros Hne Hd. unfold rel_new. rewrite bool_decide_eq_false_2 by done. simpl.
    eexists. split; [done|]. split; [|done]. split; simpl.
    - done.
    - intros items v. by rewrite lookup_empty.
    - apply index_holds_empty.
    - destruct (law_new D L spec []) as [h _]. exists (fun _ => h). intros z. simpl.
      by rewrite values_in_empty, lookup_empty.
  Qed.

  Lemma index_holds_idx (ds : list string) (data : gmap items_t V) idx (d : string) :
    index_holds ds data idx -> d ∈ ds -> is_Some (idx !! d).
  Proof. intros H Hd. specialize (H d). destruct (idx !! d); [eauto|done]. Qed.

  Lemma incorporate_items_spec W A rel items r :
    world_holds W A -> rel_holds L A rel ->
    length items = length (r_doms rel) -> r_data rel !! items = None ->
    exists W' idx r' A' z h0, 
      incorporate_items D W rel items r =
        Ok (W', Rel D (r_doms rel) (r_spec rel)
              (<[z := default (law_of L h0 []) (r_clusters rel !! z)]> (r_clusters rel)) (r_data rel) idx, z, r') /\
      world_holds W' A' /\ clustering_extends A A' (zip (r_doms rel) items) /\
      block_of A' (r_doms rel) items = Some z /\
      (forall v, index_holds (r_doms rel) (<[items := v]> (r_data rel)) idx) /\
      (exists r0, (d_new D (r_spec rel) r0).1 = law_of L h0 []).
  Proof.
    intros HW Hrel Hl Hn. unfold incorporate_items.
    rewrite bool_decide_eq_true_2 by by apply not_elem_of_dom. simpl.
    destruct (incorporate_loop_spec W A (r_data_r rel) (r_doms rel) items items r HW)
      as (W' & idx & r' & A' & Hloop & HW' & Hext & Hall & Hidx).
    { apply Hrel. }
    { intros d Hd. eapply index_holds_idx; [apply Hrel|done]. }
    { done. }
    rewrite Hloop. simpl.
    destruct (block_of A' (r_doms rel) items) as [z|] eqn:Ez.
    2:{ exfalso. assert (is_Some (block_of A' (r_doms rel) items)) as [? ?]; [|congruence].
        apply block_of_is_Some. split; [done|]. intros d e Hm. apply Hall. done. }
    assert (get_cluster_assignment D W' (set_data_r D rel idx) items = Ok z) as ->.
    { by apply (get_cluster_assignment_Ok W' A' HW'). }
    simpl.
    assert (forall v, index_holds (r_doms rel) (<[items := v]> (r_data rel)) idx) as Hih.
    { intros v d. specialize (Hidx d). pose proof (rh_index _ _ _ Hrel d) as H0.
      destruct (r_data_r rel !! d) as [m|].
      - destruct Hidx as (m' & -> & Hm'). destruct H0 as [Hin Hm]. split; [done|]. intros e.
        rewrite Hm', observations_insert, Hm. unfold mentions.
        destruct (decide ((d, e) ∈ zip (r_doms rel) items)) as [Hi|Hi]; [|done].
        rewrite (decide_False (P := {[items]} ∪ _ = ∅)) by set_solver. f_equal.
        destruct (decide (observations_of _ _ d e = ∅)) as [->|]; done.
      - by rewrite Hidx. }
    destruct (r_clusters rel !! z) as [c|] eqn:Ec.
    - destruct (law_new D L (r_spec rel) []) as [h0 Hh0].
      exists W', idx, r', A', z, h0. rewrite Ec. simpl. rewrite (insert_id _ _ _ Ec).
      split; [destruct rel; done|]. eauto 10.
    - unfold make_new_distribution. simpl. destruct (law_new D L (r_spec rel) r') as [h0 Hh0].
      destruct (d_new D (r_spec rel) r') as [c r''] eqn:En. simpl in Hh0. subst c.
      exists W', idx, r'', A', z, h0. rewrite Ec. simpl. split_and!; try done.
      exists r'. by rewrite En.
  Qed.

  Lemma rel_incorporate_items_blocks A A' P rel hh items z h0 v :
    rel_holds L A rel -> clustering_extends A A' P ->
    blocks_hold L hh (block_of A (r_doms rel)) (r_data rel) (r_clusters rel) ->
    r_data rel !! items = None -> block_of A' (r_doms rel) items = Some z -> law_adm L v ->
    exists c', d_inc D (default (law_of L h0 []) (r_clusters rel !! z)) v = Ok c' /\
      exists hh', blocks_hold L hh' (block_of A' (r_doms rel)) (<[items := v]> (r_data rel))
        (<[z := c']> (r_clusters rel)).
  Proof.
    intros Hrel Hext Hb Hn Hz Hv.
    assert (blocks_hold L hh (block_of A' (r_doms rel)) (r_data rel) (r_clusters rel)) as Hb'.
    { eapply blocks_ext; [done| |done]. intros k [w Hw]. eapply block_of_extends; [done|].
      by apply (rh_known _ _ _ Hrel k w). }
    destruct (blocks_add L hh _ _ _ items v z h0 Hb') as (_ & c' & Hc' & Hb''); try done.
    { intros k w Hw. by apply (rh_known _ _ _ Hrel k w). }
    exists c'. split; [done|]. eexists. apply Hb''.
  Qed.

  Lemma rel_incorporate_spec W A rel items v r :
    world_holds W A -> rel_holds L A rel ->
    length items = length (r_doms rel) -> r_data rel !! items = None -> law_adm L v ->
    exists W' A' rel' r', rel_incorporate D W rel items v r = Ok (W', rel', r') /\
      world_holds W' A' /\ rel_holds L A' rel' /\ r_doms rel' = r_doms rel /\
      r_spec rel' = r_spec rel /\
      r_data rel' = <[items := v]> (r_data rel) /\ clustering_extends A A' (zip (r_doms rel) items).
  Proof.
    intros HW Hrel Hl Hn Hv. unfold rel_incorporate.
    destruct (incorporate_items_spec W A rel items r HW Hrel Hl Hn)
      as (W' & idx & r' & A' & z & h0 & -> & HW' & Hext & Hz & Hih & _). simpl.
    rewrite lookup_insert. simpl.
    destruct (rh_blocks _ _ _ Hrel) as [hh Hb].
    destruct (rel_incorporate_items_blocks A A' _ rel hh items z h0 v Hrel Hext Hb Hn Hz Hv)
      as (c' & -> & hh' & Hb'). simpl.
    exists W', A'. eexists _, r'. split; [done|]. split; [done|]. split; [|done].
    unfold set_clusters, set_data. rewrite insert_insert. split; simpl.
    - intros d Hd. destruct Hext as [-> _]. by apply Hrel.
    - intros k w Hw. apply lookup_insert_Some in Hw as [[<- <-]|[_ Hw]].
      + split; [|done]. rewrite Hz. eauto.
      + destruct (rh_known _ _ _ Hrel k w Hw) as [Hs Ha]. split; [|done].
        by rewrite <- (block_of_extends A A' _ _ _ Hext).
    - apply Hih.
    - by exists hh'.
  Qed.

  Lemma rel_incorporate_inv W A rel items v r st :
    world_holds W A -> rel_holds L A rel -> rel_incorporate D W rel items v r = Ok st ->
    length items = length (r_doms rel) /\ r_data rel !! items = None /\ law_adm L v.
  Proof.
    intros HW Hrel H. pose proof H as H0. unfold rel_incorporate, incorporate_items in H0.
    apply obind_Ok in H0 as (x & H0 & H1). apply obind_Ok in H0 as (u & Hn & H0).
    apply assert_Ok, bool_decide_eq_true, not_elem_of_dom in Hn.
    apply obind_Ok in H0 as ([[W' idx] r'] & _ & H0). apply obind_Ok in H0 as (z & Hz & _).
    assert (length items = length (r_doms rel)) as Hl.
    { unfold get_cluster_assignment in Hz. simpl in Hz. by case_bool_decide. }
    split; [done|]. split; [done|].
    unfold rel_incorporate in H.
    destruct (incorporate_items_spec W A rel items r HW Hrel Hl Hn)
      as (W2 & idx2 & r2 & A2 & z2 & h0 & Hi & HW' & Hext & Hz2 & Hih).
    rewrite Hi in H. simpl in H. rewrite lookup_insert in H. simpl in H.
    apply obind_Ok in H as (c' & Hc & _).
    destruct (rh_blocks _ _ _ Hrel) as [hh Hb].
    rewrite (proj1 (blocks_hold_alt L _ _ _ _) Hb z2) in Hc.
    assert (Forall (law_adm L) (values_in (block_of A (r_doms rel)) (r_data rel) z2)) as HF.
    { apply values_in_Forall. intros k w Hw. by apply (rh_known _ _ _ Hrel k w). }
    destruct (values_in _ _ _); simpl in Hc; apply law_inc in Hc; naive_solver.
  Qed.

  Lemma cleanup_data_spec rel items v :
    index_holds (r_doms rel) (r_data rel) (r_data_r rel) ->
    length items = length (r_doms rel) -> r_data rel !! items = Some v ->
    exists idx, cleanup_data D rel items =
      Ok (Rel D (r_doms rel) (r_spec rel) (r_clusters rel) (delete items (r_data rel)) idx) /\
      index_holds (r_doms rel) (delete items (r_data rel)) idx.
  Proof.
    intros Hih Hl Hv. unfold cleanup_data.
    destruct (cleanup_loop_spec (r_data_r rel) (r_doms rel) items items) as (idx & -> & Hidx).
    { intros d Hd. eapply index_holds_idx; done. }
    { done. }
    simpl. exists idx. split; [done|]. intros d. specialize (Hidx d). specialize (Hih d).
    destruct (r_data_r rel !! d) as [m|].
    - destruct Hidx as (m' & -> & Hm'). destruct Hih as [Hin Hm]. split; [done|]. intros e.
      rewrite Hm', observations_delete, Hm.
      destruct (decide ((d, e) ∈ zip (r_doms rel) items)) as [Hi|Hi].
      + rewrite decide_False; [done|]. intros Hemp.
        assert (items ∈ observations_of (r_doms rel) (r_data rel) d e) as Hx; [|rewrite Hemp in Hx; set_solver].
        apply elem_of_observations. split; [eauto|done].
      + assert (observations_of (r_doms rel) (r_data rel) d e ∖ {[items]} =
                observations_of (r_doms rel) (r_data rel) d e) as ->; [|done].
        assert (items ∉ observations_of (r_doms rel) (r_data rel) d e); [|set_solver].
        rewrite elem_of_observations. by intros [_ ?].
    - by rewrite Hidx.
  Qed.

  Lemma rel_unincorporate_spec W A rel items v :
    world_holds W A -> rel_holds L A rel -> r_data rel !! items = Some v ->
    exists rel', rel_unincorporate D W rel items = Ok rel' /\ rel_holds L A rel' /\
      r_doms rel' = r_doms rel /\ r_spec rel' = r_spec rel /\ r_data rel' = delete items (r_data rel).
  Proof.
    intros HW Hrel Hv. unfold rel_unincorporate.
    rewrite bool_decide_eq_true_2 by (apply elem_of_dom; eauto). simpl. rewrite Hv. simpl.
    destruct (rh_known _ _ _ Hrel items v Hv) as [[z Hz] Ha].
    rewrite (proj2 (get_cluster_assignment_Ok W A HW rel items z) Hz). simpl.
    destruct (rh_blocks _ _ _ Hrel) as [hh Hb].
    destruct (blocks_remove L hh _ _ _ items v z Hb) as (cl' & -> & Hb' & _); try done.
    { intros k w Hw. by apply (rh_known _ _ _ Hrel k w). }
    simpl.
    destruct (cleanup_data_spec (set_clusters D rel cl') items v) as (idx & -> & Hih); simpl; try done.
    { apply Hrel. }
    { by apply block_of_Some in Hz as [? _]. }
    eexists. split; [done|]. split; [|done]. split; simpl.
    - apply Hrel.
    - intros k w Hw. apply lookup_delete_Some in Hw as [_ Hw]. by apply (rh_known _ _ _ Hrel).
    - done.
    - by exists hh.
  Qed.

  Lemma rel_unincorporate_inv W rel items st :
    rel_unincorporate D W rel items = Ok st -> is_Some (r_data rel !! items).
  Proof.
    unfold rel_unincorporate. intros H. apply obind_Ok in H as (u & Hn & _).
    by apply assert_Ok, bool_decide_eq_true, elem_of_dom in Hn.
  Qed.
End Ops.

Section Ops2.
  Context {V : Type} {D : Dist V} (L : lawful D).
  Implicit Types (rel : relation D).

  Lemma rel_update_value_spec W A rel items v v0 :
    world_holds W A -> rel_holds L A rel -> r_data rel !! items = Some v0 -> law_adm L v ->
    exists rel', rel_update_value D W rel items v = Ok rel' /\ rel_holds L A rel' /\
      r_doms rel' = r_doms rel /\ r_spec rel' = r_spec rel /\ r_data rel' = <[items := v]> (r_data rel).
  Proof.
    intros HW Hrel Hv Hadm.
    destruct (rh_known _ _ _ Hrel items v0 Hv) as [[z Hz] Ha].
    pose proof (proj2 (get_cluster_assignment_Ok W A HW rel items z) Hz) as Hgz.
    destruct (rh_blocks _ _ _ Hrel) as [hh Hb].
    set (g := block_of A (r_doms rel)) in *.
    pose proof (values_in_delete g (r_data rel) items v0 z Hv) as Hp. rewrite decide_True in Hp by done.
    assert (r_clusters rel !! z = Some (law_of L (hh z) (v0 :: values_in g (delete items (r_data rel)) z))) as Hc.
    { rewrite (proj1 (blocks_hold_alt L _ _ _ _) Hb z), (block_state_perm L _ _ _ Hp). done. }
    assert (forall k w, r_data rel !! k = Some w -> law_adm L w) as Hall.
    { intros k w Hw. by apply (rh_known _ _ _ Hrel k w). }
    unfold rel_update_value, unincorporate_from_cluster, get_value. rewrite Hgz. simpl.
    rewrite bool_decide_eq_true_2 by (apply elem_of_dom; eauto). simpl.
    rewrite bool_decide_eq_true_2 by (apply elem_of_dom; eauto). simpl.
    rewrite Hv. simpl. rewrite Hc. simpl. rewrite law_uninc.
    2:{ rewrite <- Hp. by apply values_in_Forall. }
    simpl. unfold incorporate_to_cluster.
    match goal with |- context [get_cluster_assignment D W ?x items] =>
      change (get_cluster_assignment D W x items) with (get_cluster_assignment D W rel items) end.
    rewrite Hgz. simpl.
    rewrite bool_decide_eq_true_2 by (apply elem_of_dom; rewrite lookup_insert; eauto). simpl.
    rewrite lookup_insert. simpl.
    set (l := values_in g (delete items (r_data rel)) z) in *.
    assert (d_inc D (law_of L (hh z) l) v = Ok (law_of L (hh z) (v :: l))) as ->.
    { apply law_inc; [|done]. apply values_in_Forall. intros k w Hw%lookup_delete_Some. naive_solver. }
    simpl. rewrite Hv. simpl. eexists. split; [done|]. split; [|done]. split; simpl.
    - apply Hrel.
    - intros k w Hw. apply lookup_insert_Some in Hw as [[<- <-]|[_ Hw]].
      + split; [|done]. unfold g in Hz. rewrite Hz. eauto.
      + by apply (rh_known _ _ _ Hrel).
    - eapply index_holds_same_dom; [|apply Hrel]. rewrite dom_insert_L.
      assert (items ∈ dom (r_data rel)) by (apply elem_of_dom; eauto). set_solver.
    - exists hh. intros z'. fold g. fold (block_state L (hh z') (values_in g (<[items := v]> (r_data rel)) z')).
      rewrite insert_insert. rewrite <- (insert_delete_insert (r_data rel)).
      rewrite (block_state_perm L _ _ _ (values_in_insert g _ items v z' (lookup_delete _ _))).
      destruct (decide (z' = z)) as [->|Hne].
      + rewrite lookup_insert, decide_True by done. done.
      + rewrite lookup_insert_ne, decide_False by congruence.
        rewrite (proj1 (blocks_hold_alt L _ _ _ _) Hb z').
        rewrite (block_state_perm L _ _ _ (values_in_delete g _ items v0 z' Hv)).
        by rewrite decide_False by congruence.
  Qed.

  Lemma rel_update_value_inv W A rel items v st :
    world_holds W A -> rel_holds L A rel -> rel_update_value D W rel items v = Ok st ->
    is_Some (r_data rel !! items) /\ law_adm L v.
  Proof.
    intros HW Hrel H. unfold rel_update_value in H.
    apply obind_Ok in H as (rel1 & H1 & H). apply obind_Ok in H as (rel2 & H2 & H).
    unfold unincorporate_from_cluster, get_value in H1.
    apply obind_Ok in H1 as (z & Hz & H1). apply obind_Ok in H1 as (? & _ & H1).
    apply obind_Ok in H1 as (v0 & Hv & H1). apply obind_Ok in Hv as (? & _ & Hv). apply at_Ok in Hv.
    apply obind_Ok in H1 as (c & Hc & H1). apply at_Ok in Hc. apply obind_Ok in H1 as (c1 & Hc1 & [= <-]).
    split; [eauto|].
    apply (get_cluster_assignment_Ok W A HW rel) in Hz as Hbz.
    unfold incorporate_to_cluster in H2.
    match type of H2 with context [get_cluster_assignment D W ?x items] =>
      change (get_cluster_assignment D W x items) with (get_cluster_assignment D W rel items) in H2 end.
    rewrite Hz in H2. simpl in H2. apply obind_Ok in H2 as (? & _ & H2).
    rewrite lookup_insert in H2. simpl in H2. apply obind_Ok in H2 as (c2 & Hc2 & _).
    destruct (rh_blocks _ _ _ Hrel) as [hh Hb].
    set (g := block_of A (r_doms rel)) in *.
    pose proof (values_in_delete g (r_data rel) items v0 z Hv) as Hp. rewrite decide_True in Hp by done.
    rewrite (proj1 (blocks_hold_alt L _ _ _ _) Hb z), (block_state_perm L _ _ _ Hp) in Hc. injection Hc as <-.
    assert (forall k w, r_data rel !! k = Some w -> law_adm L w) as Hall.
    { intros k w Hw. by apply (rh_known _ _ _ Hrel k w). }
    rewrite law_uninc in Hc1.
    2:{ rewrite <- Hp. by apply values_in_Forall. }
    injection Hc1 as <-. apply law_inc in Hc2 as [? _]; [done|].
    apply values_in_Forall. intros k w Hw%lookup_delete_Some. naive_solver.
  Qed.

  (** Moving one observation to another block. *)
  Lemma move_one_spec W rel d0 e0 t0 hh g cl r k v z z' h1 :
    blocks_hold L hh g (r_data rel) cl -> (forall k v, r_data rel !! k = Some v -> law_adm L v) ->
    r_data rel !! k = Some v -> g k = Some z ->
    get_cluster_assignment D W rel k = Ok z ->
    get_cluster_assignment_gibbs D W rel k d0 e0 t0 = Ok z' ->
    (d_new D (r_spec rel) r).1 = law_of L h1 [] ->
    exists cl0 cl' r', move_one D W rel d0 e0 t0 (cl, r) k = Ok (cl', r') /\
      remove_from_cluster D cl z v = Ok cl0 /\
      let hh' := match cl0 !! z' with Some _ => hh | None => fun x => if decide (x = z') then h1 else hh x end in
      blocks_hold L hh' (fun k' => if decide (k' = k) then Some z' else g k') (r_data rel) cl'.
  Proof.
    intros Hb Hadm Hk Hg Hz Hz' Hh1. unfold move_one. rewrite Hk. simpl. rewrite Hz. simpl.
    destruct (blocks_remove L hh g _ _ k v z Hb Hadm Hk Hg) as (cl0 & Hrm & Hb0 & _).
    rewrite Hrm. simpl. rewrite Hz'. simpl.
    set (g' := fun k' => if decide (k' = k) then Some z' else g k').
    assert (blocks_hold L hh g' (delete k (r_data rel)) cl0) as Hb0'.
    { eapply blocks_ext; [done| |done]. intros k' Hk'. apply lookup_delete_is_Some in Hk' as [Hne _].
      unfold g'. by rewrite decide_False. }
    unfold make_new_distribution. 
    destruct (blocks_add L hh g' (delete k (r_data rel)) cl0 k v z' h1 Hb0') as (HN & c' & Hc' & Hb').
    { intros k' v' Hv'%lookup_delete_Some. naive_solver. }
    { apply lookup_delete. }
    { unfold g'. by rewrite decide_True. }
    { eauto. }
    rewrite (insert_delete _ _ _ Hk) in Hb'.
    destruct (cl0 !! z') as [c|] eqn:Ec; simpl in Hc'.
    - rewrite (HN _ eq_refl). simpl. rewrite Hc'. simpl.
      eexists cl0, _, _. rewrite Ec. split; [done|]. split; [done|]. done.
    - destruct (d_new D (r_spec rel) r) as [c r1] eqn:En. simpl in Hh1. subst c. rewrite Hc'. simpl.
      eexists cl0, _, _. rewrite Ec. split; [done|]. split; [done|]. done.
  Qed.

  (** The blocks after moving the observations in [done], the others not yet. *)
  Definition g_partial A A' (ds : list string) (dn : list items_t) (k : items_t) : option (list Z) :=
    if decide (k ∈ dn) then block_of A' ds k else block_of A ds k.

  Lemma move_loop_spec W A rel d0 e0 t0 todo dn hh cl r :
    world_holds W A -> rel_holds L A rel ->
    let A' := clustering_move A d0 e0 t0 in
    blocks_hold L hh (g_partial A A' (r_doms rel) dn) (r_data rel) cl ->
    NoDup (dn ++ todo) ->
    (forall k, k ∈ todo -> is_Some (r_data rel !! k) /\ mentions (r_doms rel) k d0 e0) ->
    exists cl' r', foldM (move_one D W rel d0 e0 t0) (cl, r) todo = Ok (cl', r') /\
      exists hh', blocks_hold L hh' (g_partial A A' (r_doms rel) (dn ++ todo)) (r_data rel) cl'.
  Proof.
    intros HW Hrel A'. revert dn hh cl r.
    induction todo as [|k todo IH]; intros dn hh cl r Hb Hnd Htodo; cbn [foldM].
    { exists cl, r. split; [done|]. exists hh. by rewrite app_nil_r. }
    destruct (Htodo k) as [[v Hv] Hm]; [left|].
    destruct (rh_known _ _ _ Hrel k v Hv) as [[z Hz] _].
    pose proof (proj2 (get_cluster_assignment_Ok W A HW rel k z) Hz) as Hgz.
    destruct (get_cluster_assignment_gibbs_Ok W A HW rel k d0 e0 t0) as (z' & Hgz' & Hz'); [eauto|done|].
    assert (k ∉ dn) as Hkd.
    { apply NoDup_app in Hnd as (_ & Hnd & _). intros Hin. apply (Hnd k Hin). left. }
    destruct (law_new D L (r_spec rel) r) as [h1 Hh1].
    destruct (move_one_spec W rel d0 e0 t0 hh _ cl r k v z z' h1 Hb) as (cl0 & cl' & r' & -> & _ & Hb'); try done.
    { intros k' v' Hv'. by apply (rh_known _ _ _ Hrel k' v'). }
    { unfold g_partial. by rewrite decide_False. }
    cbn [obind]. replace (dn ++ k :: todo) with ((dn ++ [k]) ++ todo) in * by by rewrite <- app_assoc.
    eapply IH.
    - eapply blocks_ext; [exact Hb'| |done]. intros k' Hk'. simpl. unfold g_partial.
      destruct (decide (k' = k)) as [->|Hne].
      + rewrite decide_True by (apply elem_of_app; right; left). done.
      + destruct (decide (k' ∈ dn)) as [Hi|Hi].
        * rewrite decide_True by (apply elem_of_app; by left). done.
        * rewrite decide_False; [done|]. rewrite elem_of_app, elem_of_list_singleton. naive_solver.
    - done.
    - intros k' Hk'. apply Htodo. by right.
  Qed.

  Lemma index_lookup rel A d0 e0 m s :
    rel_holds L A rel -> r_data_r rel !! d0 = Some m -> m !! e0 = Some s ->
    s = observations_of (r_doms rel) (r_data rel) d0 e0 /\ s <> ∅.
  Proof.
    intros Hrel Hm Hs. pose proof (rh_index _ _ _ Hrel d0) as H. rewrite Hm in H.
    destruct H as [_ H]. rewrite H in Hs. destruct (decide _); naive_solver.
  Qed.

  Lemma block_of_move A ds d0 e0 t0 items :
    is_Some (block_of A ds items) -> is_Some (block_of (clustering_move A d0 e0 t0) ds items).
  Proof.
    rewrite !block_of_is_Some. intros [Hl H]. split; [done|]. intros d e Hm. rewrite seat_move.
    destruct (decide _); eauto.
  Qed.

  Lemma block_of_move_other A ds d0 e0 t0 items :
    ~ mentions ds items d0 e0 -> block_of (clustering_move A d0 e0 t0) ds items = block_of A ds items.
  Proof.
    intros Hm. apply block_of_ext. intros d e Hin. rewrite seat_move, decide_False; [done|]. naive_solver.
  Qed.

  Lemma rel_set_cluster_spec W A rel ord d0 e0 t0 cur r m s :
    world_holds W A -> rel_holds L A rel -> order_ok ord ->
    seat A d0 e0 = Some cur -> t0 <> cur ->
    r_data_r rel !! d0 = Some m -> m !! e0 = Some s ->
    exists rel' r', rel_set_cluster D W rel ord d0 e0 t0 r = Ok (rel', r') /\
      rel_holds L (clustering_move A d0 e0 t0) rel' /\
      r_doms rel' = r_doms rel /\ r_spec rel' = r_spec rel /\ r_data rel' = r_data rel /\ r_data_r rel' = r_data_r rel.
  Proof.
    intros HW Hrel Hord Hcur Hne Hm Hs. unfold rel_set_cluster.
    destruct (world_get_cluster W A HW d0 e0 cur Hcur) as (dm & -> & Hdm). simpl. rewrite Hdm. simpl.
    rewrite bool_decide_eq_true_2 by done. simpl. rewrite Hm. simpl. rewrite Hs. simpl.
    destruct (index_lookup rel A d0 e0 m s Hrel Hm Hs) as [Hobs _].
    destruct (rh_blocks _ _ _ Hrel) as [hh Hb].
    destruct (move_loop_spec W A rel d0 e0 t0 (ord s) [] hh (r_clusters rel) r HW Hrel)
      as (cl' & r' & -> & hh' & Hb').
    { eapply blocks_ext; [exact Hb| |done]. intros k _. unfold g_partial. by rewrite decide_False by apply not_elem_of_nil. }
    { simpl. rewrite (Hord s). apply NoDup_elements. }
    { intros k Hk. rewrite (Hord s), elem_of_elements, Hobs, elem_of_observations in Hk. done. }
    simpl. eexists _, _. split; [done|]. split; [|done]. split; simpl.
    - intros d Hd. rewrite dom_clustering_move. by apply Hrel.
    - intros k v Hv. destruct (rh_known _ _ _ Hrel k v Hv) as [Hk Ha]. split; [|done]. by apply block_of_move.
    - apply Hrel.
    - exists hh'. eapply blocks_ext; [exact Hb'| |done]. intros k Hk. unfold g_partial.
      destruct (decide (k ∈ [] ++ ord s)) as [Hi|Hi]; [done|].
      simpl in Hi. rewrite (Hord s), elem_of_elements, Hobs, elem_of_observations in Hi.
      rewrite block_of_move_other; [done|]. naive_solver.
  Qed.

  Lemma rel_set_cluster_inv W A rel ord d0 e0 t0 r st :
    world_holds W A -> rel_set_cluster D W rel ord d0 e0 t0 r = Ok st ->
    exists cur m s, seat A d0 e0 = Some cur /\ t0 <> cur /\ r_data_r rel !! d0 = Some m /\ m !! e0 = Some s.
  Proof.
    intros HW H. unfold rel_set_cluster in H.
    apply obind_Ok in H as (dm & Hd & H). apply obind_Ok in H as (cur & Hc & H).
    apply obind_Ok in H as (? & Hne%assert_Ok & H). apply bool_decide_eq_true in Hne.
    apply obind_Ok in H as (m & Hm%at_Ok & H). apply obind_Ok in H as (s & Hs%at_Ok & H).
    exists cur, m, s. split; [by eapply world_get_cluster_inv|]. done.
  Qed.

  Lemma world_holds_set_cluster W A d0 e0 t0 dm dm' :
    world_holds W A -> deref W d0 = Ok dm -> dom_set_cluster dm e0 t0 = Ok dm' ->
    world_holds (<[d0 := dm']> W) (clustering_move A d0 e0 t0) /\ is_Some (seat A d0 e0).
  Proof.
    intros HW Hd Hs. apply idx_Ok in Hd. pose proof (HW d0) as H0. rewrite Hd in H0.
    destruct (A !! d0) as [a|] eqn:Ea; [|done].
    destruct (dom_do_effect dm a (DReassign e0 t0) dm' H0 Hs) as (a' & Hh & Hsome & ->).
    assert (clustering_move A d0 e0 t0 = <[d0 := <[e0 := t0]> a]> A) as ->.
    { unfold clustering_move. apply map_eq. intros d. destruct (decide (d = d0)) as [->|].
      - by rewrite lookup_alter, lookup_insert, Ea.
      - by rewrite lookup_alter_ne, lookup_insert_ne. }
    split; [by apply world_holds_insert|]. unfold seat. by rewrite Ea.
  Qed.

  Lemma world_set_cluster_Ok W A d0 e0 t0 cur :
    world_holds W A -> seat A d0 e0 = Some cur -> t0 <> cur ->
    exists dm dm', deref W d0 = Ok dm /\ dom_set_cluster dm e0 t0 = Ok dm'.
  Proof.
    intros HW Hs Hne. destruct (world_holds_lookup W A d0 e0 cur HW Hs) as (dm & a & HWd & HAd & Hh & Ha).
    destruct (dom_set_cluster_spec dm a e0 cur t0 Hh Ha) as (dm' & Hd & _); [done|].
    exists dm, dm'. unfold deref. by rewrite HWd.
  Qed.
End Ops2.
