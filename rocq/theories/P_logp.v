(** Proofs about predictive probabilities. *)
From Coq Require Import String Ascii.
From stdpp Require Import gmap strings sorting.
From Coq Require Import ZArith Reals Lra Lia.
From Verif Require Import M_base M_math M_crp M_domain M_dist M_relation M_noisy M_irm M_logp
  S_math S_crp S_crp_state S_relation S_irm S_logp P_base P_math P_sum P_crp P_crp_score P_domain P_relation P_irm_gibbs.
Local Open Scope R_scope.

(** * Lists *)
Lemma bind_fmap_l {A B C} (f : A -> B) (g : B -> list C) l : (f <$> l) ≫= g = l ≫= (fun x => g (f x)).
Proof. induction l as [|x l IH]; [done|]. csimpl. by f_equal. Qed.
Lemma fmap_bind_l {A B C} (f : B -> C) (g : A -> list B) l : f <$> (l ≫= g) = l ≫= (fun x => f <$> g x).
Proof. induction l as [|x l IH]; [done|]. csimpl. rewrite fmap_app. f_equal. exact IH. Qed.
Lemma cartesian_fmap {A B} (f : A -> B) (ls : list (list A)) :
  cartesian (map (map f) ls) = map (map f) (cartesian ls).
Proof.
  induction ls as [|l ls IH]; [done|]. simpl. rewrite IH. generalize (cartesian ls). intros C.
  induction l as [|x l IHl]; [done|]. simpl. rewrite map_app. f_equal; [|exact IHl].
  clear IHl. induction C as [|c C IHC]; [done|]. rewrite fmap_cons. simpl map. rewrite fmap_cons. f_equal. exact IHC.
Qed.

Local Arguments Rprod : simpl never.
Lemma Rprod_cons x l : Rprod (x :: l) = x * Rprod l.
Proof. done. Qed.
Lemma Rsum_map_scal {A} c (f : A -> R) l : Rsum ((fun x => c * f x) <$> l) = c * Rsum (f <$> l).
Proof. induction l as [|x l IH]; csimpl; rewrite ?Rsum_nil, ?Rsum_cons; [lra|]. rewrite IH. lra. Qed.

Lemma cartesian_prod (ls : list (list (Z * R))) :
  Rsum ((fun ch : list (Z * R) => Rprod ch.*2) <$> cartesian ls) = Rprod ((fun l : list (Z * R) => Rsum l.*2) <$> ls).
Proof.
  induction ls as [|l ls IH]; [unfold Rsum, Rprod; simpl; lra|]. csimpl. rewrite fmap_bind_l, Rprod_cons, <- IH.
  clear IH. generalize (cartesian ls). intros C. induction l as [|x l IHl]; csimpl; rewrite ?Rsum_nil, ?Rsum_cons; [lra|].
  rewrite Rsum_app, <- list_fmap_compose. unfold compose. csimpl.
  change ((fun x0 : list (Z * R) => Rprod (x.2 :: x0.*2)) <$> C) with ((fun x0 : list (Z * R) => x.2 * Rprod x0.*2) <$> C).
  rewrite Rsum_map_scal. rewrite Rmult_plus_distr_r. f_equal. exact IHl.
Qed.

(** * Options of one entity *)
Lemma eexp_lw_add a b : eexp (lw_add a b) = eexp a * eexp b.
Proof. destruct a, b; simpl; rewrite ?exp_plus; lra. Qed.

Definition options_list (o : list Z * list R) : list (Z * R) := zip o.1 (exp <$> o.2).

Lemma NoDup_sorted_keys {B} (w : gmap Z B) : NoDup (sorted_keys w).
Proof. unfold sorted_keys. rewrite merge_sort_Permutation. apply NoDup_elements. Qed.
Lemma elem_of_sorted_keys {B} (w : gmap Z B) t : t ∈ sorted_keys w <-> is_Some (w !! t).
Proof. unfold sorted_keys. rewrite merge_sort_Permutation, elem_of_elements. apply elem_of_dom. Qed.

Lemma zip_map_r {A B C} (f : A -> B) (g : B -> C) (l : list A) : zip l (g <$> (f <$> l)) = (fun x => (x, g (f x))) <$> l.
Proof. induction l as [|x l IH]; [done|]. csimpl. by f_equal. Qed.

Lemma entity_options_spec dm a e : domain_holds dm a -> 0 < crp_alpha (dom_crp dm) ->
  exists o, entity_options dm e = Ok o /\ length o.2 = length o.1 /\ length o.1 <> 0%nat /\
    cluster_options (crp_alpha (dom_crp dm)) a e (options_list o) /\
    exists w, crp_tables_weights (dom_crp dm) = Ok w.
Proof.
  intros [Hit Hs] Hal. unfold entity_options, cluster_options. rewrite Hit.
  assert (exists w, crp_tables_weights (dom_crp dm) = Ok w) as Hw.
  { destruct (decide (a = ∅)) as [Ha|Ha].
    - unfold crp_tables_weights. rewrite bool_decide_eq_true_2 by by apply (N_zero_iff _ _ Hs). eauto.
    - destruct (tables_weights_spec _ a Hs Ha) as (w & ? & ? & _). eauto. }
  destruct (a !! e) as [t|] eqn:E.
  - rewrite bool_decide_eq_true_2 by by apply elem_of_dom_2 in E. unfold dom_get_cluster. rewrite Hit.
    rewrite bool_decide_eq_true_2 by by apply elem_of_dom_2 in E. cbn [assert_ obind]. rewrite (hs_assign _ _ Hs), E.
    cbn [at_ obind]. eexists. split; [done|]. split_and!; [done|done| |done].
    unfold options_list. simpl. by rewrite exp_0.
  - rewrite bool_decide_eq_false_2 by by apply not_elem_of_dom. destruct Hw as [w Hw]. rewrite Hw. cbn [obind].
    eexists. split; [done|]. cbn [fst snd].
    assert (IZR (crp_N (dom_crp dm)) = INR (size a)) as HN by by rewrite (hs_N _ _ Hs), <- INR_IZR_INZ.
    rewrite HN. rewrite fmap_length. split; [done|].
    assert ((options_list (sorted_keys w, (fun t => ln (default 0 (w !! t)) - ln (crp_alpha (dom_crp dm) + INR (size a))) <$> sorted_keys w))
      = (fun t => (t, exp (ln (default 0 (w !! t)) - ln (crp_alpha (dom_crp dm) + INR (size a))))) <$> sorted_keys w) as Eo.
    { unfold options_list. cbn [fst snd]. apply (zip_map_r (fun t => ln (default 0 (w !! t)) - ln (crp_alpha (dom_crp dm) + INR (size a))) exp). }
    rewrite Eo. clear Eo.
    assert (forall x, 0 < x -> exp (ln x - ln (crp_alpha (dom_crp dm) + INR (size a))) = x / (INR (size a) + crp_alpha (dom_crp dm))) as Hex.
    { intros x Hx. pose proof (pos_INR (size a)). unfold Rminus. rewrite exp_plus, exp_Ropp, !exp_ln by lra.
      unfold Rdiv. do 2 f_equal. lra. }
    destruct (decide (a = ∅)) as [Ha|Ha].
    + unfold crp_tables_weights in Hw. rewrite bool_decide_eq_true_2 in Hw by by apply (N_zero_iff _ _ Hs). injection Hw as <-.
      assert (sorted_keys ({[0%Z := 1]} : gmap Z R) = [0%Z]) as ->.
      { unfold sorted_keys. rewrite dom_singleton_L, elements_singleton. done. }
      csimpl. split; [done|]. split; [|by eexists]. split; [apply NoDup_singleton|]. rewrite lookup_singleton. simpl.
      rewrite Hex by lra. subst a. rewrite map_size_empty. simpl. do 2 f_equal. field. lra.
    + destruct (tables_weights_spec _ a Hs Ha) as (w' & tnew & Hw' & Hnew & Hlt & Hlk). rewrite Hw in Hw'. injection Hw' as <-.
      split.
      { intros Hz. apply nil_length_inv in Hz. assert (tnew ∈ sorted_keys w) as Hin.
        { apply elem_of_sorted_keys. rewrite Hlk, decide_True, decide_True by done. eauto. }
        rewrite Hz in Hin. by apply elem_of_nil in Hin. }
      split; [|by eexists].
      split. { rewrite <- list_fmap_compose. unfold compose. cbn [fst]. rewrite list_fmap_id. apply NoDup_sorted_keys. }
      exists tnew. split; [done|]. intros t p. rewrite elem_of_list_fmap. split.
      * intros (t0 & [= <- ->] & Ht). apply elem_of_sorted_keys in Ht as [x Hx]. rewrite Hx. simpl. rewrite Hlk in Hx.
        destruct (decide (customers_at a t = ∅)) as [He|He].
        -- destruct (decide (t = tnew)); [|done]. injection Hx as <-. right. split; [done|]. by rewrite Hex.
        -- injection Hx as <-. left. split; [done|]. rewrite Hex; [done|].
           apply lt_0_INR. apply Nat.neq_0_lt_0. intros Hz. apply He. by apply size_empty_inv in Hz; apply leibniz_equiv.
      * intros [(He & ->)|(-> & ->)].
        -- exists t. rewrite elem_of_sorted_keys, Hlk, decide_False by done. simpl. split; [|eauto]. rewrite Hex; [done|].
           apply lt_0_INR. apply Nat.neq_0_lt_0. intros Hz. apply He. by apply size_empty_inv in Hz; apply leibniz_equiv.
        -- exists tnew. rewrite elem_of_sorted_keys, Hlk, !decide_True by done. simpl. split; [|eauto]. by rewrite Hex.
Qed.

(** * The universe of entities *)
Section Universe.
Context {V : Type}.
Implicit Types (ir : irm V).
Notation universe := (list ((string * Z) * (list Z * list R))).
Notation observation := (string * items_t * V)%type.

Definition univ_ok (W : world) (A : clustering) (u : universe) (des : list (string * Z)) : Prop :=
  NoDup u.*1 /\ (forall de, de ∈ u.*1 <-> de ∈ des) /\
  Forall (fun p => exists dm a, W !! p.1.1 = Some dm /\ A !! p.1.1 = Some a /\
    length p.2.2 = length p.2.1 /\ length p.2.1 <> 0%nat /\
    cluster_options (crp_alpha (dom_crp dm)) a p.1.2 (options_list p.2)) u.

Lemma in_universe_spec (u : universe) de : in_universe u de = true <-> de ∈ u.*1.
Proof.
  unfold in_universe. rewrite existsb_exists. split.
  - intros (p & Hp & E%bool_decide_eq_true). apply elem_of_list_fmap. exists p. split; [done|]. by apply elem_of_list_In.
  - intros (p & -> & Hp)%elem_of_list_fmap. exists p. split; [by apply elem_of_list_In|by apply bool_decide_eq_true].
Qed.

Lemma add_entity_spec W A (u : universe) des de : world_holds W A -> positive W -> de.1 ∈ dom A -> univ_ok W A u des ->
  exists u', add_entity W u de = Ok u' /\ univ_ok W A u' (des ++ [de]).
Proof.
  intros Hw Hp Hd (Hnd & Hin & HF). unfold add_entity. destruct (in_universe u de) eqn:E.
  - apply in_universe_spec in E. exists u. split; [done|]. split_and!; [done| |done].
    intros de'. rewrite elem_of_app, elem_of_list_singleton, Hin. split; [by left|]. intros [?| ->]; [done|]. by apply Hin.
  - assert (de ∉ u.*1) as Hni. { intros Hin'. apply in_universe_spec in Hin'. congruence. }
    apply elem_of_dom in Hd as [a Ha]. pose proof (Hw de.1) as Hwd. rewrite Ha in Hwd.
    destruct (W !! de.1) as [dm|] eqn:Ed; [|done]. unfold deref. rewrite Ed. cbn.
    destruct (entity_options_spec dm a de.2 Hwd (Hp _ _ Ed)) as (o & Ho & Hl & Hne & Hopt & w & Hw'). rewrite Hw'. cbn. rewrite Ho. cbn.
    eexists. split; [done|]. split_and!.
    + rewrite fmap_app. apply NoDup_app. split_and!; [done| |apply NoDup_singleton]. intros x Hx. csimpl.
      rewrite elem_of_list_singleton. by intros ->.
    + intros de'. rewrite fmap_app, !elem_of_app, Hin. csimpl. done.
    + apply Forall_app. split; [done|]. apply Forall_singleton. exists dm, a. done.
Qed.

Lemma add_entities_spec W A des' : forall (u : universe) des, world_holds W A -> positive W ->
  Forall (fun de => de.1 ∈ dom A) des' -> univ_ok W A u des ->
  exists u', foldM (add_entity W) u des' = Ok u' /\ univ_ok W A u' (des ++ des').
Proof.
  induction des' as [|de des' IH]; intros u des Hw Hp HF Hu; csimpl.
  - exists u. by rewrite app_nil_r.
  - inversion HF; subst. destruct (add_entity_spec W A u des de) as (u' & -> & Hu'); try done. cbn.
    destruct (IH u' _ Hw Hp H2 Hu') as (u'' & Hf & Hu''). exists u''. split; [done|]. by rewrite <- app_assoc in Hu''.
Qed.

Definition observation_ents ir (ob : observation) : list (string * Z) :=
  match i_rels ir !! ob.1.1 with Some a => zip (any_doms a) ob.1.2 | None => [] end.

Lemma add_observations_spec ir A obs : forall seen (u : universe) des,
  world_holds (i_domains ir) A -> positive (i_domains ir) ->
  (forall name a d, i_rels ir !! name = Some a -> d ∈ any_doms a -> d ∈ dom A) ->
  univ_ok (i_domains ir) A u des ->
  Forall (observation_shape ir) obs -> NoDup obs.*1 -> (forall k, k ∈ obs.*1 -> k ∉ seen) ->
  exists seen' u', foldM (add_observation ir) (seen, u) obs = Ok (seen', u') /\
    univ_ok (i_domains ir) A u' (des ++ (obs ≫= observation_ents ir)).
Proof.
  induction obs as [|[[name items] v] obs IH]; intros seen u des Hw Hp Hd Hu HF Hnd Hns; csimpl.
  - exists seen, u. by rewrite app_nil_r.
  - apply Forall_cons in HF as [(a & Ha & Hlen) HF]. cbn [fst snd] in Ha, Hlen.
    apply NoDup_cons in Hnd as [Hni Hnd]. unfold add_observation at 1. rewrite bool_decide_eq_true_2 by (apply Hns; left).
    cbn. rewrite Ha. cbn. rewrite bool_decide_eq_true_2 by done. cbn.
    destruct (add_entities_spec (i_domains ir) A (zip (any_doms a) items) u des) as (u' & -> & Hu'); try done.
    { apply Forall_forall. intros [d e] Hin. apply elem_of_zip_l in Hin. by eapply Hd. }
    cbn. destruct (IH ({[(name, items)]} ∪ seen) u' _ Hw Hp Hd Hu' HF Hnd) as (seen' & u'' & Hf & Hu'').
    { intros k Hk. apply not_elem_of_union. split; [|by apply Hns; right]. intros ->%elem_of_singleton. done. }
    exists seen', u''. split; [exact Hf|]. rewrite <- app_assoc in Hu''. unfold observation_ents at 1. cbn [fst snd]. rewrite Ha. done.
Qed.

Lemma add_observations_inv ir obs : forall seen (u : universe) st,
  foldM (add_observation ir) (seen, u) obs = Ok st ->
  Forall (observation_shape ir) obs /\ NoDup obs.*1 /\ (forall k, k ∈ obs.*1 -> k ∉ seen).
Proof.
  induction obs as [|[[name items] v] obs IH]; intros seen u st; csimpl.
  - intros _. split_and!; [constructor|constructor|]. intros k Hk. by apply elem_of_nil in Hk.
  - intros H. apply obind_Ok in H as ([seen1 u1] & H1 & H2). unfold add_observation in H1.
    destruct (decide ((name, items) ∉ seen)) as [Hns|Hns]; [|by rewrite bool_decide_eq_false_2 in H1].
    rewrite bool_decide_eq_true_2 in H1 by done. cbn in H1.
    destruct (i_rels ir !! name) as [a|] eqn:Ha; [|done]. cbn in H1.
    destruct (decide (length items = length (any_doms a))) as [Hl|Hl]; [|by rewrite bool_decide_eq_false_2 in H1].
    rewrite bool_decide_eq_true_2 in H1 by done. cbn in H1. apply obind_Ok in H1 as (u2 & _ & [= <- <-]).
    destruct (IH _ _ _ H2) as (HF & Hnd & Hk). split_and!.
    + constructor; [|done]. by exists a.
    + constructor; [|done]. intros Hin. apply Hk in Hin. set_solver.
    + intros k [->|Hin]%elem_of_cons; [done|]. apply Hk in Hin. set_solver.
Qed.

(** * One combination *)
Definition index_option (tup : list (nat * (Z * R))) (u : universe) : Prop :=
  Forall2 (fun x p => x ∈ zip (seq 0 (length p.2.1)) (options_list p.2)) tup u.

Lemma elem_of_zip_seq {B} (l : list B) n i x : (i, x) ∈ zip (seq n (length l)) l -> (n <= i)%nat /\ l !! (i - n)%nat = Some x.
Proof.
  revert n. induction l as [|y l IH]; intros n; simpl; [by intros ?%elem_of_nil|].
  intros [[= -> ->]|H]%elem_of_cons; [rewrite Nat.sub_diag; split; [lia|done]|].
  apply IH in H as [H1 H2]. split; [lia|]. replace (i - n)%nat with (S (i - S n)) by lia. done.
Qed.

Lemma options_lookup (o : list Z * list R) i t p : length o.2 = length o.1 ->
  (i, (t, p)) ∈ zip (seq 0 (length o.1)) (options_list o) -> o.1 !! i = Some t /\ exists w, o.2 !! i = Some w /\ p = exp w.
Proof.
  intros Hl Hin. unfold options_list in Hin.
  assert (length (zip o.1 (exp <$> o.2)) = length o.1) as Hlen by (rewrite zip_with_length, fmap_length; lia).
  rewrite <- Hlen in Hin. apply elem_of_zip_seq in Hin as [_ Hlk]. rewrite Nat.sub_0_r in Hlk.
  apply lookup_zip_with_Some in Hlk as (t' & p' & [= <- <-] & H1 & H2). rewrite list_lookup_fmap in H2.
  apply fmap_Some in H2 as (w & Hw & ->). eauto.
Qed.

Lemma weight_of_spec (u : universe) tup : Forall (fun p => length p.2.2 = length p.2.1) u -> index_option tup u ->
  exists w, weight_of u tup.*1 = Ok w /\ exp w = Rprod tup.*2.*2.
Proof.
  intros HF H. revert HF. induction H as [|[i [t p]] [de o] tup u Hx H IH]; intros HF; csimpl.
  - exists 0. split; [done|]. unfold Rprod; simpl. apply exp_0.
  - apply Forall_cons in HF as [Hl HF]. cbn [fst snd] in *. destruct (options_lookup o i t p Hl Hx) as (_ & w & Hw & ->).
    rewrite Hw. cbn. destruct (IH HF) as (w' & -> & E). cbn. eexists. split; [done|]. by rewrite exp_plus, E.
Qed.

Lemma chosen_spec (u : universe) tup de : Forall (fun p => length p.2.2 = length p.2.1) u -> index_option tup u ->
  chosen u tup.*1 de = at_ (picked u.*1 tup.*2 de.1 de.2).
Proof.
  intros HF H. revert HF. unfold picked. induction H as [|[i [t p]] [de' o] tup u Hx H IH]; intros HF; csimpl; [done|].
  apply Forall_cons in HF as [Hl HF]. cbn [fst snd] in *. destruct (options_lookup o i t p Hl Hx) as (Ht & _).
  destruct de as [d e]. case_bool_decide as E.
  - rewrite E. rewrite Ht. cbn [fst snd]. by rewrite lookup_insert.
  - cbn [fst snd]. rewrite lookup_insert_ne by done. by apply IH.
Qed.

Lemma chosen_block_spec (u : universe) tup des : Forall (fun p => length p.2.2 = length p.2.1) u -> index_option tup u ->
  chosen_block u tup.*1 des = at_ (mapM (fun p => picked u.*1 tup.*2 p.1 p.2) des).
Proof.
  intros HF H. induction des as [|de des IH]; [done|]. simpl. rewrite (chosen_spec u tup de HF H).
  destruct (picked u.*1 tup.*2 de.1 de.2) as [t|]; [|done]. cbn. rewrite IH.
  by destruct (mapM _ des).
Qed.

Lemma combination_logp_eq ir obs u idx r : combination_logp ir obs u idx r =
  let* w := weight_of u idx in foldM (obs_step ir u idx) (Some w, r) obs.
Proof. done. Qed.

(** One observation: scored exactly when [observation_lik] is defined. *)
Lemma obs_step_spec ir (u : universe) tup acc r ob : all_fresh_determined ir ->
  Forall (fun p => length p.2.2 = length p.2.1) u -> index_option tup u ->
  match observation_lik ir (picked u.*1 tup.*2) ob with
  | Some x => exists lp r', obs_step ir u tup.*1 (acc, r) ob = Ok (lw_add acc lp, r') /\ eexp lp = x
  | None => forall st, obs_step ir u tup.*1 (acc, r) ob <> Ok st
  end.
Proof.
  intros Hdet HF Hi. destruct ob as [[name items] v]. unfold observation_lik, obs_step.
  destruct (i_rels ir !! name) as [a|] eqn:Ha; [|done]. cbn [at_ obind]. rewrite (chosen_block_spec u tup _ HF Hi).
  pose proof (Hdet _ _ Ha) as Hf.
  destruct a as [D rel|n]; cbn [any_doms].
  - destruct (mapM _ _) as [z|] eqn:Ez; [|done]. cbn [at_ obind any_cluster_or_prior_logp].
    unfold cluster_or_prior_logp, prior_logp, make_new_distribution.
    destruct (r_clusters rel !! z) as [c|].
    + change (default ?x (Some c)) with c. destruct (d_logp D c v) as [lp| | | | |]; try (intros ?; cbn; discriminate). cbn. by eexists _, _.
    + change (default ?x None) with x. destruct (d_new D (r_spec rel) r) as [c r'] eqn:En. specialize (Hf [] r). rewrite En in Hf. cbn [fst] in Hf. rewrite Hf.
      destruct (d_logp D c v) as [lp| | | | |]; try (intros ?; cbn; discriminate). cbn. by eexists _, _.
  - intros st. destruct (mapM _ _); done.
Qed.

Lemma obs_fold_spec ir (u : universe) tup : forall obs acc r, all_fresh_determined ir ->
  Forall (fun p => length p.2.2 = length p.2.1) u -> index_option tup u ->
  Forall (fun ob => is_Some (observation_lik ir (picked u.*1 tup.*2) ob)) obs ->
  exists lp r', foldM (obs_step ir u tup.*1) (acc, r) obs = Ok (lp, r') /\
    eexp lp = eexp acc * joint_lik ir (picked u.*1 tup.*2) obs.
Proof.
  induction obs as [|ob obs IH]; intros acc r Hdet HF Hi Hs.
  - exists acc, r. split; [done|]. unfold joint_lik, Rprod. simpl. lra.
  - apply Forall_cons in Hs as [[x Hx] Hs]. pose proof (obs_step_spec ir u tup acc r ob Hdet HF Hi) as H. rewrite Hx in H.
    destruct H as (lp1 & r1 & H1 & E1). cbn [foldM]. rewrite H1. cbn [obind].
    destruct (IH (lw_add acc lp1) r1 Hdet HF Hi Hs) as (lp & r' & Hf & E). exists lp, r'. split; [done|].
    rewrite E, eexp_lw_add, E1. unfold joint_lik. csimpl. rewrite Hx. simpl. rewrite Rprod_cons. lra.
Qed.

Lemma obs_fold_inv ir (u : universe) tup : forall obs acc r st, all_fresh_determined ir ->
  Forall (fun p => length p.2.2 = length p.2.1) u -> index_option tup u ->
  foldM (obs_step ir u tup.*1) (acc, r) obs = Ok st ->
  Forall (fun ob => is_Some (observation_lik ir (picked u.*1 tup.*2) ob)) obs.
Proof.
  induction obs as [|ob obs IH]; intros acc r st Hdet HF Hi H; [constructor|].
  cbn [foldM] in H. apply obind_Ok in H as ([acc1 r1] & H1 & H2).
  pose proof (obs_step_spec ir u tup acc r ob Hdet HF Hi) as Hs. constructor; [|by eapply IH].
  destruct (observation_lik _ _ ob); [by eexists|]. by destruct (Hs _ H1).
Qed.

(** All combinations. *)
Definition choice_prob ir (u : universe) obs (ch : list (Z * R)) : R :=
  Rprod ch.*2 * joint_lik ir (picked u.*1 ch) obs.

Lemma combos_spec ir (u : universe) obs : all_fresh_determined ir -> Forall (fun p => length p.2.2 = length p.2.1) u ->
  forall tups logps r, Forall (fun tup => index_option tup u /\
    Forall (fun ob => is_Some (observation_lik ir (picked u.*1 tup.*2) ob)) obs) tups ->
  exists logps' r', foldM (combo_step ir obs u) (logps, r) (map (map fst) tups) = Ok (logps ++ logps', r') /\
    eexp <$> logps' = (fun tup => choice_prob ir u obs (map snd tup)) <$> tups.
Proof.
  intros Hdet HF tups. induction tups as [|tup tups IH]; intros logps r Ht.
  - exists [], r. rewrite app_nil_r. done.
  - apply Forall_cons in Ht as [[Hi Hs] Ht]. cbn [map foldM]. unfold combo_step at 1. rewrite combination_logp_eq.
    destruct (weight_of_spec u tup HF Hi) as (w & Hw & Ew). change (map fst tup) with (tup.*1). rewrite Hw. cbn [obind].
    destruct (obs_fold_spec ir u tup obs (Some w) r Hdet HF Hi Hs) as (lp & r1 & -> & E). cbn [obind].
    destruct (IH (logps ++ [lp]) r1 Ht) as (logps' & r' & Hf & E'). exists (lp :: logps'), r'. split; [by rewrite Hf, <- app_assoc|].
    csimpl. rewrite E'. f_equal. rewrite E. simpl. rewrite Ew. done.
Qed.

Lemma combos_inv ir (u : universe) obs : all_fresh_determined ir -> Forall (fun p => length p.2.2 = length p.2.1) u ->
  forall tups logps r st, Forall (fun tup => index_option tup u) tups ->
  foldM (combo_step ir obs u) (logps, r) (map (map fst) tups) = Ok st ->
  Forall (fun tup => Forall (fun ob => is_Some (observation_lik ir (picked u.*1 tup.*2) ob)) obs) tups.
Proof.
  intros Hdet HF tups. induction tups as [|tup tups IH]; intros logps r st Ht H; [constructor|].
  apply Forall_cons in Ht as [Hi Ht]. cbn [map foldM] in H. apply obind_Ok in H as ([logps1 r1] & H1 & H2).
  constructor; [|by eapply IH]. unfold combo_step in H1. rewrite combination_logp_eq in H1.
  apply obind_Ok in H1 as ([lp r2] & H1 & _). apply obind_Ok in H1 as (w & _ & H1). by eapply obs_fold_inv.
Qed.

(** * IRM::logp *)
Definition universe_options (u : universe) : list (list (Z * R)) := (fun p => options_list p.2) <$> u.
Lemma universe_options_eq (u : universe) :
  universe_options u = map (fun p : (string * Z) * (list Z * list R) => options_list p.2) u.
Proof. done. Qed.

Lemma irm_logp_tups (u : universe) : Forall (fun p => length p.2.2 = length p.2.1) u -> exists tups,
  cartesian (map (fun p : (string * Z) * (list Z * list R) => seq 0 (length p.2.1)) u) = map (map fst) tups /\
  cartesian (universe_options u) = map (map snd) tups /\
  Forall (fun tup => index_option tup u) tups.
Proof.
  intros HF. exists (cartesian (map (fun p : (string * Z) * (list Z * list R) => zip (seq 0 (length p.2.1)) (options_list p.2)) u)).
  rewrite <- !cartesian_fmap, !map_map.
  assert (Forall (fun p : (string * Z) * (list Z * list R) => length (options_list p.2) = length p.2.1) u) as Hl.
  { eapply Forall_impl; [exact HF|]. intros p E. unfold options_list. rewrite zip_with_length, fmap_length. simpl in *. lia. }
  split_and!.
  - f_equal. clear HF. induction Hl as [|p u Hp _ IH]; [done|]. simpl. f_equal; [|exact IH].
    symmetry. apply (fst_zip (seq 0 (length p.2.1)) (options_list p.2)). rewrite seq_length. lia.
  - f_equal. rewrite universe_options_eq. clear HF. induction Hl as [|p u Hp _ IH]; [done|]. simpl. f_equal; [|exact IH].
    symmetry. apply (snd_zip (seq 0 (length p.2.1)) (options_list p.2)). rewrite seq_length. lia.
  - apply Forall_forall. intros tup Hin. apply elem_of_cartesian in Hin. unfold index_option.
    apply (proj1 (Forall2_fmap_r _ _ _ _)) in Hin. exact Hin.
Qed.

(** The mixture, over the entities and options the code collects. *)
Lemma irm_logp_collected ar ir A obs : irm_holds ar ir A -> positive (i_domains ir) -> all_fresh_determined ir ->
  Forall (observation_shape ir) obs -> NoDup obs.*1 -> (exists ob d e, ob ∈ obs /\ observation_mentions ir ob d e) ->
  exists seen (u : universe), foldM (add_observation ir) (∅, []) obs = Ok (seen, u) /\ let ents := u.*1 in let opts := universe_options u in NoDup ents /\
    (forall d e, (d, e) ∈ ents <-> exists ob, ob ∈ obs /\ observation_mentions ir ob d e) /\
    Forall2 (fun de l => exists dm a, i_domains ir !! de.1 = Some dm /\ A !! de.1 = Some a /\
      cluster_options (crp_alpha (dom_crp dm)) a de.2 l) ents opts /\ forall r,
    ((exists st, irm_logp ir obs r = Ok st) <->
       Forall (fun ch => Forall (fun ob => is_Some (observation_lik ir (picked ents ch) ob)) obs) (cartesian opts)) /\
    (forall lp r', irm_logp ir obs r = Ok (lp, r') ->
      eexp lp = Rsum ((fun ch : list (Z * R) => Rprod ch.*2 * joint_lik ir (picked ents ch) obs) <$> cartesian opts)).
Proof.
  intros Hh Hp Hdet HS Hnd Hne.
  destruct (add_observations_spec ir A obs ∅ [] []) as (seen & u & Hf & Hnd' & Hin & HF); try done.
  { apply (ih_world _ _ _ Hh). }
  { intros name a d Ha Hd. apply (ih_used _ _ _ Hh). eauto. }
  { split_and!; [constructor| |constructor]. done. }
  simpl app in Hin.
  assert (forall d e, (d, e) ∈ obs ≫= observation_ents ir <-> exists ob, ob ∈ obs /\ observation_mentions ir ob d e) as Hments.
  { intros d e. rewrite elem_of_list_bind. unfold observation_ents, observation_mentions, mentions. split.
    - intros (ob & Hm & Ho). exists ob. split; [done|]. destruct (i_rels ir !! ob.1.1) as [a|]; [eauto|]. by apply elem_of_nil in Hm.
    - intros (ob & Ho & a & Ea & Hm). exists ob. by rewrite Ea. }
  assert (Forall (fun p : (string * Z) * (list Z * list R) => length p.2.2 = length p.2.1) u) as HF2.
  { eapply Forall_impl; [exact HF|]. by intros p (? & ? & ? & ? & ? & _). }
  assert (u <> []) as Hu0.
  { destruct Hne as (ob & d & e & Ho & Hm). intros ->. apply (elem_of_nil (d, e)). apply Hin, Hments. eauto. }
  destruct (irm_logp_tups u HF2) as (tups & Et1 & Et2 & Hti).
  exists seen, u. cbv zeta. split_and!.
  - done.
  - done.
  - intros d e. by rewrite Hin.
  - unfold universe_options. apply Forall2_fmap, Forall_Forall2_diag. eapply Forall_impl; [exact HF|].
    intros p (dm & a & ? & ? & _ & _ & ?). eauto.
  - intros r. split.
  { unfold irm_logp. rewrite Hf. cbn [obind]. rewrite product_Ok by by destruct u. cbn [obind].
    change (fmap ?f u) with (map f u). rewrite Et1, Et2. split.
    + intros (st & H). apply obind_Ok in H as ([logps r1] & H & _).
      apply (combos_inv ir u obs Hdet HF2 tups [] r _ Hti) in H. apply Forall_forall. intros ch Hch.
      apply elem_of_list_fmap in Hch as (tup & -> & Htup). by apply (proj1 (Forall_forall _ _) H).
    + intros HFc. destruct (combos_spec ir u obs Hdet HF2 tups [] r) as (logps & r1 & Hc & E).
      { apply Forall_forall. intros tup Htup. split; [by apply (proj1 (Forall_forall _ _) Hti)|].
        apply (proj1 (Forall_forall _ _) HFc (map snd tup)). apply elem_of_list_fmap. eauto. }
      rewrite Hc. cbn [obind app].
      destruct (logsumexp_spec logps) as (lp & -> & _); [|cbn; eauto].
      intros ->. destruct tups as [|tup tups]; [|done].
      assert (length (cartesian (universe_options u)) <> 0%nat) as Hl; [|by rewrite Et2 in Hl].
      rewrite length_cartesian. unfold universe_options. clear -HF HF2. induction HF as [|p u' Hp _ IH]; [done|].
      apply Forall_cons in HF2 as [HH HF2]. csimpl. destruct Hp as (? & ? & _ & _ & _ & Hn & _).
      assert (length (options_list p.2) = length p.2.1) as ->. { unfold options_list. rewrite zip_with_length, fmap_length. cbn [fst snd] in HH. lia. }
      specialize (IH HF2). intros Hz. apply Nat.eq_mul_0 in Hz as [Hz|Hz]; [by apply Hn|by apply IH]. }
    intros lp r'. unfold irm_logp. rewrite Hf. cbn [obind]. rewrite product_Ok by by destruct u. cbn [obind].
    change (fmap ?f u) with (map f u). rewrite Et1, Et2.
    intros H. apply obind_Ok in H as ([logps r1] & H & Hl).
    pose proof (combos_inv ir u obs Hdet HF2 tups [] r _ Hti H) as HFc.
    destruct (combos_spec ir u obs Hdet HF2 tups [] r) as (logps' & r2 & Hc & E).
    { apply Forall_forall. intros tup Htup. split; [by apply (proj1 (Forall_forall _ _) Hti)|by apply (proj1 (Forall_forall _ _) HFc)]. }
    rewrite Hc in H. simplify_eq. simpl app in Hl. apply obind_Ok in Hl as (lp' & Hl & [= <- <-]).
    destruct (logsumexp_spec logps) as (lp'' & Hl' & El).
    { intros ->. unfold logsumexp in Hl. simpl in Hl. done. }
    rewrite Hl in Hl'. injection Hl' as <-. rewrite El, E. change (map (map snd) tups) with ((fun t : list (nat * (Z * R)) => map snd t) <$> tups).
    rewrite <- list_fmap_compose. done.
Qed.

Lemma irm_logp_specs ar ir A obs : irm_holds ar ir A -> positive (i_domains ir) -> all_fresh_determined ir ->
  Forall (observation_shape ir) obs -> NoDup obs.*1 -> (exists ob d e, ob ∈ obs /\ observation_mentions ir ob d e) ->
  exists ents opts, NoDup ents /\
    (forall d e, (d, e) ∈ ents <-> exists ob, ob ∈ obs /\ observation_mentions ir ob d e) /\
    Forall2 (fun de l => exists dm a, i_domains ir !! de.1 = Some dm /\ A !! de.1 = Some a /\
      cluster_options (crp_alpha (dom_crp dm)) a de.2 l) ents opts /\ forall r,
    ((exists st, irm_logp ir obs r = Ok st) <->
       Forall (fun ch => Forall (fun ob => is_Some (observation_lik ir (picked ents ch) ob)) obs) (cartesian opts)) /\
    (forall lp r', irm_logp ir obs r = Ok (lp, r') ->
      eexp lp = Rsum ((fun ch : list (Z * R) => Rprod ch.*2 * joint_lik ir (picked ents ch) obs) <$> cartesian opts)).
Proof.
  intros Hh Hp Hdet HS Hnd Hne. destruct (irm_logp_collected ar ir A obs Hh Hp Hdet HS Hnd Hne) as (seen & u & _ & H). by exists u.*1, (universe_options u).
Qed.

Lemma irm_logp_spec ar ir A obs r : irm_holds ar ir A -> positive (i_domains ir) -> all_fresh_determined ir ->
  Forall (observation_shape ir) obs -> NoDup obs.*1 -> (exists ob d e, ob ∈ obs /\ observation_mentions ir ob d e) ->
  exists ents opts, NoDup ents /\
    (forall d e, (d, e) ∈ ents <-> exists ob, ob ∈ obs /\ observation_mentions ir ob d e) /\
    Forall2 (fun de l => exists dm a, i_domains ir !! de.1 = Some dm /\ A !! de.1 = Some a /\
      cluster_options (crp_alpha (dom_crp dm)) a de.2 l) ents opts /\
    ((exists st, irm_logp ir obs r = Ok st) <->
       Forall (fun ch => Forall (fun ob => is_Some (observation_lik ir (picked ents ch) ob)) obs) (cartesian opts)) /\
    (forall lp r', irm_logp ir obs r = Ok (lp, r') ->
      eexp lp = Rsum ((fun ch : list (Z * R) => Rprod ch.*2 * joint_lik ir (picked ents ch) obs) <$> cartesian opts)).
Proof.
  intros Hh Hp Hdet HS Hnd Hne. destruct (irm_logp_specs ar ir A obs Hh Hp Hdet HS Hnd Hne) as (ents & opts & H1 & H2 & H3 & H4).
  exists ents, opts. split; [done|]. split; [done|]. split; [done|]. apply H4.
Qed.

Lemma irm_logp_inv ir obs r st : irm_logp ir obs r = Ok st ->
  Forall (observation_shape ir) obs /\ NoDup obs.*1.
Proof.
  unfold irm_logp. intros H. apply obind_Ok in H as ([seen u] & H & _). apply add_observations_inv in H as (? & ? & _). done.
Qed.
End Universe.

(** * The weights of the mixture *)
Lemma cluster_options_sum c a e l : holds_seating c a -> 0 < crp_alpha c -> cluster_options (crp_alpha c) a e l ->
  Rsum l.*2 = if decide (is_Some (a !! e) \/ a <> ∅) then 1 else / crp_alpha c.
Proof.
  intros Hc Hal. unfold cluster_options. destruct (a !! e) as [t|] eqn:E.
  - intros ->. rewrite decide_True by (left; eauto). unfold Rsum. simpl. lra.
  - intros [Hnd H]. destruct (decide (a = ∅)) as [Ha|Ha].
    + rewrite decide_False by (intros [[? ?]|?]; done). subst l. unfold Rsum. simpl. lra.
    + rewrite decide_True by by right. destruct H as (tnew & Hnew & Hl).
      set (m := list_to_map l : gmap Z R).
      assert (m = (fun x => / (INR (size a) + crp_alpha c) * x) <$> <[tnew := crp_alpha c]> ((fun s => INR (size s)) <$> crp_tables c)) as Hm.
      { apply map_eq. intros t. rewrite lookup_fmap. unfold m. destruct (decide (t = tnew)) as [->|Hne].
        - rewrite lookup_insert. simpl. apply elem_of_list_to_map_1; [done|]. apply Hl. right. split; [done|]. unfold Rdiv. lra.
        - rewrite lookup_insert_ne by done. rewrite lookup_fmap, (hs_tables _ _ Hc).
          destruct (decide (customers_at a t = ∅)) as [He|He]; simpl.
          + apply not_elem_of_list_to_map_1. intros ((t' & p) & -> & Hin)%elem_of_list_fmap. apply Hl in Hin as [[? ?]|[? ?]]; done.
          + apply elem_of_list_to_map_1; [done|]. apply Hl. left. split; [done|]. unfold Rdiv. lra. }
      assert (Rsum l.*2 = sum_map (fun _ x => x) m) as ->.
      { unfold m, sum_map. rewrite (foldr_sum_perm (fun _ x => x) _ l) by by apply map_to_list_to_map. clear. induction l as [|[t p] l IH]; [done|]. csimpl. by rewrite Rsum_cons, IH. }
      rewrite Hm, sum_map_fmap, sum_map_scal, sum_map_insert, sum_map_fmap, (tables_sum c a Hc).
      * pose proof (pos_INR (size a)). field. lra.
      * rewrite lookup_fmap, (hs_tables _ _ Hc), decide_True by done. done.
Qed.
