(** Theorems about the probability a relation gives to a value: C72. *)
From Coq Require Import String Ascii.
From stdpp Require Import gmap strings sorting.
From Coq Require Import ZArith Reals Lra Lia.
From Verif Require Import P_reached.
From Verif Require Import M_base M_math M_crp M_domain M_dist M_distributions M_relation M_noisy M_irm M_logp M_rel_logp
  S_math S_crp S_crp_state S_relation S_dist S_irm S_logp S_rel_logp P_base P_math P_sum P_crp P_crp_score P_domain P_relation P_relation_score
  P_relation_gibbs P_relation_history P_dist P_beta_bernoulli P_relation_refuted P_irm_gibbs P_irm_pos P_logp P_rel_logp P_rel_agree.
Local Open Scope string_scope.
Local Open Scope R_scope.
Local Arguments Rprod : simpl never.

(** * C72 *)
(** CleanRelation::logp.  The probability reported is the sum, over all ways of
    choosing for every position of the items one of the clusters its entity can
    have, of the product of the probabilities of the choices times the probability
    of the value in the block they name.  The call succeeds exactly when the value
    can be scored in every one of these blocks. *)
Theorem C72_mixture {V} : forall (D : Dist V) W A (rel : relation D) items v,
  world_holds W A -> positive W -> (forall d, d ∈ r_doms rel -> d ∈ dom A) -> r_doms rel <> [] -> fresh_fixed rel ->
  length items = length (r_doms rel) ->
  exists opts,
    Forall2 (fun de l => exists dm a, W !! de.1 = Some dm /\ A !! de.1 = Some a /\
      cluster_options (crp_alpha (dom_crp dm)) a de.2 l) (zip (r_doms rel) items) opts /\ forall r,
    ((exists st, rel_logp D W rel items v r = Ok st) <->
       Forall (fun ch : list (Z * R) => is_Some (block_lik rel ch.*1 v)) (cartesian opts)) /\
    (forall lp r', rel_logp D W rel items v r = Ok (lp, r') ->
      eexp lp = Rsum ((fun ch : list (Z * R) => Rprod ch.*2 * default 0 (block_lik rel ch.*1 v)) <$> cartesian opts)).
Proof.
  intros D W A rel items v Hw Hp Hd Hne Hdet Hl.
  destruct (rel_logp_spec D W A rel items v Hw Hp Hd Hne Hdet Hl) as (opts & H2 & _ & H). by exists opts.
Qed.
Print Assumptions C72_mixture.

(** The wrong number of items is never scored. *)
Theorem C72_ill_formed_rejected {V} : forall (D : Dist V) W (rel : relation D) items v r,
  length items <> length (r_doms rel) -> rel_logp D W rel items v r = AssertFail.
Proof. intros D W rel items v r H. unfold rel_logp. by rewrite bool_decide_eq_false_2. Qed.
Print Assumptions C72_ill_formed_rejected.

Lemma eexp_inj a b : eexp a = eexp b -> a = b.
Proof.
  destruct a as [x|], b as [y|]; simpl; intros H; [f_equal; by apply exp_inv| | |done].
  - pose proof (exp_pos x). lra.
  - pose proof (exp_pos y). lra.
Qed.

Lemma known_option W A d e t : world_holds W A -> positive W -> seat A d e = Some t -> opt_of W (d, e) = [(t, 1)].
Proof.
  intros Hw Hp Hs. unfold seat in Hs. destruct (A !! d) as [a|] eqn:Ea; [|done]. simpl in Hs.
  pose proof (Hw d) as Hd. rewrite Ea in Hd. destruct (W !! d) as [dm|] eqn:Ed; [|done].
  destruct (entity_options_spec dm a e Hd (Hp _ _ Ed)) as (o & Ho & _ & _ & Hopt & _).
  unfold opt_of. cbn [fst snd]. rewrite Ed, Ho. unfold cluster_options in Hopt. by rewrite Hs in Hopt.
Qed.

(** If no entity without a cluster occurs at two positions, the relation and the
    IRM it belongs to report the same probability for the value. *)
Theorem C72_agrees_with_irm {V} : forall ar (ir : irm V) A name (D : Dist V) (rel : relation D) items v r r1 lp lp' r' r1',
  irm_holds ar ir A -> positive (i_domains ir) -> all_fresh_determined ir ->
  i_rels ir !! name = Some (AClean D rel) -> r_doms rel <> [] ->
  (forall i j d e, i <> j -> r_doms rel !! i = Some d -> r_doms rel !! j = Some d ->
     items !! i = Some e -> items !! j = Some e -> is_Some (seat A d e)) ->
  irm_logp ir [(name, items, v)] r = Ok (lp, r') -> rel_logp D (i_domains ir) rel items v r1 = Ok (lp', r1') ->
  lp' = lp.
Proof.
  intros ar ir A name D rel items v r r1 lp lp' r' r1' Hh Hp Hdet Ha Hne Hrep Hi Hr. apply eexp_inj.
  destruct (irm_logp_single ar ir A name D rel items v r lp r' Hh Hp Hdet Ha Hne Hi) as (ents & Hnd & Hin & ->).
  assert (length items = length (r_doms rel)) as Hl.
  { unfold rel_logp in Hr. apply obind_Ok in Hr as (? & Hl & _). by apply assert_Ok, bool_decide_eq_true in Hl. }
  destruct (rel_logp_spec D (i_domains ir) A rel items v) as (opts & _ & -> & Hs); try done.
  { apply (ih_world _ _ _ Hh). }
  { intros d Hd. apply (ih_used _ _ _ Hh). by exists name, (AClean D rel). }
  { exact (Hdet _ _ Ha). }
  rewrite (proj2 (Hs r1) _ _ Hr).
  refine (separate_shared (opt_of (i_domains ir)) _
    (fun o => default 0 (match o with Some z => block_lik rel z v | None => None end)) ents _ Hnd Hin).
  intros l1 [d e] l2 E Hd. apply elem_of_list_lookup in Hd as [j Hj].
  assert (forall k de, zip (r_doms rel) items !! k = Some de -> r_doms rel !! k = Some de.1 /\ items !! k = Some de.2) as Hz.
  { intros k de Hk. by apply lookup_zip_with_Some in Hk as (x & y & -> & ? & ?). }
  destruct (Hz (length l1) (d, e)) as [H1 H2]. { by rewrite E, list_lookup_middle. }
  destruct (Hz (length l1 + S j)%nat (d, e)) as [H3 H4]. { rewrite E, lookup_app_r by lia. by replace (length l1 + S j - length l1)%nat with (S j) by lia. }
  destruct (Hrep (length l1) (length l1 + S j)%nat d e) as [t Ht]; [lia|done..|].
  exists t. apply (known_option _ A); [apply (ih_world _ _ _ Hh)|done..].
Qed.
Print Assumptions C72_agrees_with_irm.

(** When all entities have clusters, the result is the probability of the value in
    the block the items belong to. *)
Theorem C72_known_entities {V} : forall (D : Dist V) W A (rel : relation D) items v r lp r' z,
  world_holds W A -> positive W -> (forall d, d ∈ r_doms rel -> d ∈ dom A) -> r_doms rel <> [] -> fresh_fixed rel ->
  block_of A (r_doms rel) items = Some z -> rel_logp D W rel items v r = Ok (lp, r') ->
  block_lik rel z v = Some (eexp lp).
Proof.
  intros D W A rel items v r lp r' z Hw Hp Hd Hne Hdet Hb Hr. unfold block_of in Hb. destruct (decide _) as [Hl|]; [|done].
  destruct (rel_logp_spec D W A rel items v Hw Hp Hd Hne Hdet Hl) as (opts & _ & -> & Hs).
  assert (cartesian (opt_of W <$> zip (r_doms rel) items) = [(fun t => (t, 1)) <$> z]) as E.
  { clear -Hb Hw Hp. revert z Hb. generalize (zip (r_doms rel) items). intros l. induction l as [|[d e] l IH]; intros z Hb; simpl in Hb.
    { by injection Hb as <-. }
    destruct (seat A d e) as [t|] eqn:Es; [|done]. simpl in Hb. destruct (mapM _ l) as [z'|]; [|done]. injection Hb as <-.
    rewrite fmap_cons. rewrite (known_option W A d e t Hw Hp Es). simpl. by rewrite (IH z' eq_refl). }
  rewrite E in Hs. destruct (Hs r) as [Hok Heq]. rewrite (Heq _ _ Hr). clear Heq.
  pose proof (proj1 (Forall_singleton _ _) (proj1 Hok (ex_intro _ _ Hr))) as HF.
  assert (((fun t : Z => (t, 1)) <$> z).*1 = z) as E1. { rewrite <- list_fmap_compose. unfold compose. cbn [fst]. apply list_fmap_id. }
  assert (Rprod ((fun t : Z => (t, 1)) <$> z).*2 = 1) as E2.
  { clear. induction z as [|t ts IH]; [done|]. rewrite !fmap_cons, Rprod_cons, IH. simpl. lra. }
  pose proof (eq_ind _ (fun y => is_Some (block_lik rel y v)) HF _ E1) as [x Hx].
  rewrite list_fmap_singleton, E1, E2, Rsum_cons, Rsum_nil, Hx. simpl. f_equal. lra.
Qed.
Print Assumptions C72_known_entities.

(** The probabilities of all values of a relation sum to one, if they do in every
    block and every entity has a cluster or belongs to a domain with entities. *)
Theorem C72_total {V} : forall (D : Dist V) W A (rel : relation D) items (vs : list V) (lps : list (option R)),
  world_holds W A -> positive W -> (forall d, d ∈ r_doms rel -> d ∈ dom A) -> r_doms rel <> [] -> fresh_fixed rel ->
  length items = length (r_doms rel) ->
  (forall z, Rsum ((fun v => default 0 (block_lik rel z v)) <$> vs) = 1) ->
  (forall d e, (d, e) ∈ zip (r_doms rel) items -> exists a, A !! d = Some a /\ a <> ∅) ->
  Forall2 (fun v lp => exists r r', rel_logp D W rel items v r = Ok (lp, r')) vs lps ->
  Rsum (eexp <$> lps) = 1.
Proof.
  intros D W A rel items vs lps Hw Hp Hd Hne Hdet Hl Hone Hents HF.
  set (des := zip (r_doms rel) items) in *.
  assert (eexp <$> lps = (fun v => Rsum ((fun ch : list (Z * R) => Rprod ch.*2 * default 0 (block_lik rel ch.*1 v)) <$> cartesian (opt_of W <$> des))) <$> vs) as ->.
  { clear Hone. induction HF as [|v lp vs lps (r & r' & Hr) _ IH]; [done|]. csimpl. rewrite IH. f_equal.
    destruct (rel_logp_spec D W A rel items v Hw Hp Hd Hne Hdet Hl) as (opts & _ & -> & Hs). exact (proj2 (Hs r) _ _ Hr). }
  rewrite (Rsum_exchange (fun v (ch : list (Z * R)) => Rprod ch.*2 * default 0 (block_lik rel ch.*1 v))).
  trans (Rsum ((fun ch : list (Z * R) => Rprod ch.*2) <$> cartesian (opt_of W <$> des))).
  { f_equal. apply list_fmap_ext. intros _ ch _. rewrite Rsum_map_scal, Hone. lra. }
  rewrite cartesian_prod. clear -Hw Hp Hents. induction des as [|[d e] des IH]; [done|]. rewrite !fmap_cons, Rprod_cons, IH.
  2:{ intros d' e' Hin. apply (Hents d' e'). by right. }
  destruct (Hents d e) as (a & Ha & Hna); [left|].
  pose proof (Hw d) as Hwd. rewrite Ha in Hwd. destruct (W !! d) as [dm|] eqn:Ed; [|done].
  destruct (entity_options_spec dm a e Hwd (Hp _ _ Ed)) as (o & Ho & _ & _ & Hopt & _).
  assert (opt_of W (d, e) = options_list o) as ->. { unfold opt_of. cbn [fst snd]. by rewrite Ed, Ho. }
  rewrite (cluster_options_sum _ a e _ (proj2 Hwd) (Hp _ _ Ed) Hopt), decide_True by by right. lra.
Qed.
Print Assumptions C72_total.

(** Instance: a Beta-Bernoulli relation. *)
Lemma bb_blocks_total lg A (rel : relation (bb_dist lg)) : rel_holds (bb_lawful lg) A rel ->
  forall z, Rsum ((fun v => default 0 (block_lik rel z v)) <$> [true; false]) = 1.
Proof.
  intros Hrel z. rewrite !fmap_cons, fmap_nil, !Rsum_cons, Rsum_nil.
  assert (exists h l, default (d_new (bb_dist lg) (r_spec rel) []).1 (r_clusters rel !! z) = bb_of h l) as (h & l & E).
  { destruct (rh_blocks _ _ _ Hrel) as [hh Hb]. rewrite (Hb z). destruct (values_in _ _ z) as [|v l].
    - exists C11_h, []. unfold bb_of. simpl. done.
    - by exists (hh z), (v :: l). }
  unfold block_lik. rewrite E. cbn [d_logp bb_dist]. simpl default. simpl eexp. pose proof (bb_predictive h l). lra.
Qed.
Theorem C72_total_beta_bernoulli : forall lg W A (rel : relation (bb_dist lg)) items,
  world_holds W A -> positive W -> rel_holds (bb_lawful lg) A rel -> r_doms rel <> [] -> length items = length (r_doms rel) ->
  (forall d e, (d, e) ∈ zip (r_doms rel) items -> exists a, A !! d = Some a /\ a <> ∅) ->
  forall r, exists lt lf r1 r2, rel_logp (bb_dist lg) W rel items true r = Ok (lt, r1) /\
    rel_logp (bb_dist lg) W rel items false r = Ok (lf, r2) /\ eexp lt + eexp lf = 1.
Proof.
  intros lg W A rel items Hw Hp Hrel Hne Hl Hents r.
  assert (forall v, exists lp r', rel_logp (bb_dist lg) W rel items v r = Ok (lp, r')) as Hs.
  { intros v. destruct (rel_logp_spec (bb_dist lg) W A rel items v Hw Hp (rh_doms _ _ _ Hrel) Hne) as (opts & _ & _ & Hs); [done..|].
    destruct (proj2 (proj1 (Hs r))) as [[lp r'] H]; [|eauto]. apply Forall_forall. intros ch _. by eexists. }
  destruct (Hs true) as (lt & r1 & H1), (Hs false) as (lf & r2 & H2). exists lt, lf, r1, r2. split_and!; [done..|].
  pose proof (C72_total (bb_dist lg) W A rel items [true; false] [lt; lf] Hw Hp (rh_doms _ _ _ Hrel) Hne) as H.
  rewrite !fmap_cons, fmap_nil, !Rsum_cons, Rsum_nil in H. rewrite Rplus_0_r in H. apply H; [done|done|by eapply bb_blocks_total|done|].
  repeat constructor; eauto.
Qed.
Print Assumptions C72_total_beta_bernoulli.

(** * An entity without a cluster at two positions *)
Lemma C72_new_options W : world_holds W C11_A -> positive W ->
  exists al t, 0 < al /\ t <> 0%Z /\ opt_of W ("d", 3%Z) ≡ₚ [(0%Z, 2 / (2 + al)); (t, al / (2 + al))].
Proof.
  intros Hw Hp. pose proof (Hw "d") as Hd. unfold C11_A in Hd. rewrite lookup_singleton in Hd.
  destruct (W !! "d") as [dm|] eqn:Ed; [|done]. set (a := {[1%Z := 0%Z; 2%Z := 0%Z]} : gmap Z Z) in *.
  destruct (entity_options_spec dm a 3 Hd (Hp _ _ Ed)) as (o & Ho & _ & _ & Hopt & _).
  assert (opt_of W ("d", 3%Z) = options_list o) as ->. { unfold opt_of. cbn [fst snd]. by rewrite Ed, Ho. }
  pose proof (Hp _ _ Ed) as Hal. set (al := crp_alpha (dom_crp dm)) in *. unfold cluster_options in Hopt.
  assert (a !! 3%Z = None) as Ea by by_compute. rewrite Ea in Hopt.
  rewrite decide_False in Hopt by (intros E; apply (f_equal (lookup 1%Z)) in E; done).
  destruct Hopt as [Hnd (tnew & Hnew & Hiff)].
  assert (size (customers_at a 0) = 2%nat) as E0 by by_compute. assert (size a = 2%nat) as E1 by by_compute.
  assert (forall t, customers_at a t <> ∅ <-> t = 0%Z) as Hcust.
  { intros t. split.
    - intros Hne. apply set_choose_L in Hne as [i Hi]. apply elem_of_customers_at in Hi. unfold a in Hi.
      apply lookup_insert_Some in Hi as [[_ ?]|[_ [_ ?]%lookup_singleton_Some]]; done.
    - intros -> E. rewrite E, size_empty in E0. done. }
  exists al, tnew. split_and!; [done| |].
  { intros ->. by apply (proj2 (Hcust 0%Z)). }
  apply NoDup_Permutation.
  - by apply NoDup_fmap_1 in Hnd.
  - apply NoDup_cons. split; [|apply NoDup_singleton]. intros [=E _]%elem_of_list_singleton. subst tnew. by apply (proj2 (Hcust 0%Z)).
  - intros [t p]. rewrite Hiff, E1, elem_of_cons, elem_of_list_singleton, Hcust. replace (INR 2) with 2 by (simpl; lra). split.
    + intros [[-> ->]|[-> ->]]; [left|by right]. rewrite E0. replace (INR 2) with 2 by (simpl; lra). done.
    + intros [[= -> ->]|[= -> ->]]; [left|by right]. rewrite E0. by replace (INR 2) with 2 by (simpl; lra).
Qed.

Lemma C72_block_lik lg (rel : relation (bb_dist lg)) z :
  blocks_hold (bb_lawful lg) (fun _ => C11_h) (block_of C11_A C11_ds) C11_data (r_clusters rel) ->
  block_lik rel z true = Some (if decide (z = [0; 0]%Z) then 3 / 4 else 1 / 2).
Proof.
  intros Hb. unfold block_lik. rewrite (Hb z). destruct (decide (z = [0; 0]%Z)) as [->|Hne].
  - rewrite C11_values. simpl. unfold bb_logp, C11_h. simpl. change (IZR (Z.of_nat (occurrences true [true; true]))) with 2.
    f_equal. unfold Rminus. rewrite exp_plus, exp_Ropp, !exp_ln by lra. field.
  - rewrite C11_values_other. 2:{ intros k Hk. rewrite (C11_block k Hk). by intros [= <-]. }
    simpl. unfold bb_logp. simpl. f_equal. unfold Rminus. rewrite exp_plus, exp_Ropp, !exp_ln by lra. field.
Qed.

Definition C72_irm lg (W : world) (rel : relation (bb_dist lg)) : irm bool :=
  Irm {[ "r" := TClean ["d"; "d"] true (bb_dist lg) tt ]} W {[ "r" := AClean (bb_dist lg) rel ]} {[ "d" := {["r"]} ]} ∅.
Lemma C72_irm_holds lg W (rel : relation (bb_dist lg)) : world_holds W C11_A -> rel_holds (bb_lawful lg) C11_A rel -> r_doms rel = C11_ds -> r_data rel = C11_data ->
  blocks_hold (bb_lawful lg) (fun _ => C11_h) (block_of C11_A C11_ds) C11_data (r_clusters rel) ->
  irm_holds (fun name => if decide (name = "r") then Some 2%nat else None) (C72_irm lg W rel) C11_A.
Proof.
  intros Hw Hrel Hds Hdata Hb.
  assert (forall name a, i_rels (C72_irm lg W rel) !! name = Some a -> name = "r" /\ a = AClean (bb_dist lg) rel) as Hr.
  { intros name a. simpl. by intros [<- <-]%lookup_singleton_Some. }
  assert (dom C11_A = {["d"]}) as HdA by (unfold C11_A; apply dom_singleton_L).
  split.
  - done.
  - intros name a [-> ->]%Hr. exists (reached_law (bb_lawful lg)). destruct Hrel as [Hd Hk Hi _]. split; [done|done|done|].
    assert (dist_history (bb_dist lg) (law_of (bb_lawful lg) C11_h []) []) as Hh. { exact (hist_new (bb_dist lg) tt []). }
    exists (fun _ => exist _ C11_h Hh). rewrite Hds, Hdata. exact Hb.
  - intros name a [-> ->]%Hr. simpl. by rewrite Hds.
  - intros name. simpl. destruct (decide (name = "r")) as [->|Hne].
    + rewrite !lookup_singleton. simpl. rewrite Hds. by destruct (r_spec rel).
    + by rewrite !lookup_singleton_ne.
  - intros d. rewrite HdA, elem_of_singleton. split.
    + intros ->. eexists "r", _. split; [done|]. simpl. rewrite Hds. left.
    + intros (name & a & [-> ->]%Hr & Hd). simpl in Hd. rewrite Hds in Hd.
      apply elem_of_cons in Hd as [->|Hd]; [done|]. by apply elem_of_list_singleton in Hd.
  - intros d. simpl. destruct (decide (d = "d")) as [->|Hne].
    + rewrite lookup_singleton. split; [rewrite HdA; set_solver|]. intros name. rewrite elem_of_singleton. split.
      * intros ->. eexists. split; [done|]. simpl. rewrite Hds. left.
      * by intros (a & [-> _]%Hr & _).
    + rewrite lookup_singleton_ne by done. rewrite HdA. set_solver.
Qed.

Lemma C72_setup lg : exists dm rel0 W (rel : relation (bb_dist lg)),
    foldM dom_do dom_new [DIncorporate 1 0 []; DIncorporate 2 0 []] = Ok dm /\
    rel_new (bb_dist lg) ["d"; "d"]%string tt = Ok rel0 /\
    foldM rel_do ({[ "d"%string := dm ]}, rel0) [RIncorporate [1; 2]%Z true []; RIncorporate [2; 1]%Z true []] = Ok (W, rel) /\
    world_holds W C11_A /\ positive W /\ rel_holds (bb_lawful lg) C11_A rel /\ r_doms rel = C11_ds /\ r_data rel = C11_data /\
    blocks_hold (bb_lawful lg) (fun _ => C11_h) (block_of C11_A C11_ds) C11_data (r_clusters rel).
Proof.
  destruct C11_domain as (dm & Hdm & HW0).
  destruct (C11_run_spec lg _ HW0) as (rel0 & W1 & rel1 & W & rel & Hn & H1 & H2 & HW & Hrel & Hds & Hdata & Hb).
  assert (positive W) as Hp.
  { assert (positive {[ "d" := dm ]}) as Hp0.
    { assert (crp_alpha (dom_crp dm) = 1) as Hal.
      { simpl in Hdm. apply obind_Ok in Hdm as (dm1 & Hd1 & Hdm). apply obind_Ok in Hdm as (dm2 & Hd2 & [= <-]).
        apply obind_Ok in Hd1 as ([? ?] & Hd1%dom_incorporate_alpha & [= ->]). apply obind_Ok in Hd2 as ([? ?] & Hd2%dom_incorporate_alpha & [= ->]).
        by rewrite Hd2, Hd1. }
      intros d dm' [_ <-]%lookup_singleton_Some. rewrite Hal. lra. }
    simpl in H1, H2. apply obind_Ok in H1 as ([[? ?] ?] & H1%rel_incorporate_positive & [= -> ->]); [|done].
    by apply obind_Ok in H2 as ([[? ?] ?] & H2%rel_incorporate_positive & [= -> ->]). }
  exists dm, rel0, W, rel. split_and!; try done.
  cbn [foldM]. setoid_rewrite H1. cbn [obind]. setoid_rewrite H2. done.
Qed.

Lemma C72_calls_succeed lg W (rel : relation (bb_dist lg)) x y v r r1 :
  world_holds W C11_A -> positive W -> rel_holds (bb_lawful lg) C11_A rel -> r_doms rel = C11_ds -> r_data rel = C11_data ->
  blocks_hold (bb_lawful lg) (fun _ => C11_h) (block_of C11_A C11_ds) C11_data (r_clusters rel) ->
  (exists st, irm_logp (C72_irm lg W rel) [("r", [x; y], v)] r = Ok st) /\ (exists st, rel_logp (bb_dist lg) W rel [x; y] v r1 = Ok st).
Proof.
  intros HW Hp Hrel Hds Hdata Hb. pose proof (C72_irm_holds lg W rel HW Hrel Hds Hdata Hb) as Hh.
  assert (all_fresh_determined (C72_irm lg W rel)) as Hdet.
  { intros name a. simpl. by intros [_ <-]%lookup_singleton_Some. }
  split.
  - destruct (irm_logp_spec _ (C72_irm lg W rel) C11_A [("r", [x; y], v)] r Hh Hp Hdet) as (ents & opts & Hnd & Hin & H2' & Hok & _).
    { constructor; [|constructor]. eexists. split; [done|]. simpl. by rewrite Hds. }
    { apply NoDup_singleton. }
    { exists ("r", [x; y], v), "d", x. split; [left|]. eexists. split; [done|]. unfold mentions. simpl. rewrite Hds. left. }
    apply Hok. apply Forall_forall. intros ch Hch. constructor; [|constructor]. unfold observation_lik. cbn [i_rels C72_irm].
    rewrite lookup_singleton. rewrite Hds.
    apply elem_of_cartesian in Hch. pose proof (Forall2_length _ _ _ H2') as Hl2. pose proof (Forall2_length _ _ _ Hch) as Hl1.
    assert (forall e, e = x \/ e = y -> exists t, picked ents ch "d" e = Some t) as Hpk.
    { intros e He. assert (("d", e) ∈ ents) as Hen.
      { apply Hin. eexists. split; [left|]. eexists. split; [done|]. unfold mentions. simpl. rewrite Hds. destruct He as [-> | ->]; [left|right; left]. }
      apply elem_of_list_lookup in Hen as [i Hi].
      destruct (lookup_lt_is_Some_2 ch i) as [[t' q] Ht']. { rewrite Hl1, <- Hl2. by eapply lookup_lt_Some. }
      exists t'. unfold picked. apply elem_of_list_to_map_1.
      - rewrite fst_zip; [done|]. rewrite fmap_length. lia.
      - apply elem_of_list_lookup. exists i. apply lookup_zip_with_Some. exists ("d", e), t'. split_and!; try done. by rewrite list_lookup_fmap, Ht'. }
    destruct (Hpk x (or_introl eq_refl)) as [tx Ex], (Hpk y (or_intror eq_refl)) as [ty Ey].
    simpl. rewrite Ex, Ey. simpl. by eexists.
  - assert (r_doms rel <> []) as Hne by by rewrite Hds.
    destruct (rel_logp_spec (bb_dist lg) W C11_A rel [x; y] v HW Hp (rh_doms _ _ _ Hrel) Hne) as (opts & _ & -> & Hs); [done|by rewrite Hds|].
    apply (proj1 (Hs r1)). apply Forall_forall. intros ch _. by eexists.
Qed.

(** Two entities in one cluster, observations (1,2) and (2,1) true, Beta(1,1).  For
    the value true at (3,3) the IRM gives entity 3 one cluster; the relation lets
    its two positions choose different clusters and reports a smaller probability. *)
Theorem C72_repeated_refuted : forall lg,
  exists dm rel0 W rel ir A,
    foldM dom_do dom_new [DIncorporate 1 0 []; DIncorporate 2 0 []] = Ok dm /\
    rel_new (bb_dist lg) ["d"; "d"]%string tt = Ok rel0 /\
    foldM rel_do ({[ "d"%string := dm ]}, rel0) [RIncorporate [1; 2]%Z true []; RIncorporate [2; 1]%Z true []] = Ok (W, rel) /\
    i_domains ir = W /\ i_rels ir = {[ "r" := AClean (bb_dist lg) rel ]} /\ (exists ar, irm_holds ar ir A) /\ positive W /\ seat A "d" 3 = None /\
    forall r r1, exists lp lp' r' r1', irm_logp ir [("r", [3; 3]%Z, true)] r = Ok (Some lp, r') /\
      rel_logp (bb_dist lg) W rel [3; 3]%Z true r1 = Ok (Some lp', r1') /\ exp lp' < exp lp.
Proof.
  intros lg. destruct (C72_setup lg) as (dm & rel0 & W & rel & Hdm & Hn & Hrun & HW & Hp & Hrel & Hds & Hdata & Hb).
  exists dm, rel0, W, rel, (C72_irm lg W rel), C11_A.
  pose proof (C72_irm_holds lg W rel HW Hrel Hds Hdata Hb) as Hh.
  assert (all_fresh_determined (C72_irm lg W rel)) as Hdet.
  { intros name a. simpl. by intros [_ <-]%lookup_singleton_Some. }
  split_and!; [done|done|done|done|done|by eexists|done|by_compute|].
  intros r r1. destruct (C72_new_options W HW Hp) as (al & t & Hal & Ht & Hopt).
  assert (r_doms rel <> []) as Hne by by rewrite Hds.
  destruct (rel_logp_spec (bb_dist lg) W C11_A rel [3; 3]%Z true HW Hp (rh_doms _ _ _ Hrel) Hne) as (opts & _ & -> & Hs); [done|by rewrite Hds|].
  destruct (C72_calls_succeed lg W rel 3 3 true r r1 HW Hp Hrel Hds Hdata Hb) as [[[lp r'] Hi] [[lp' r1'] Hr]].
  destruct (irm_logp_single _ (C72_irm lg W rel) C11_A "r" (bb_dist lg) rel [3; 3]%Z true r lp r' Hh Hp Hdet eq_refl Hne Hi) as (ents & Hnd & Hin & Ei).
  pose proof (proj2 (Hs r1) _ _ Hr) as Er. rewrite Hds in Ei, Er, Hin. change (zip C11_ds [3; 3]%Z) with [("d", 3%Z); ("d", 3%Z)] in *.
  assert (ents = [("d", 3%Z)]) as ->.
  { apply Permutation_singleton_r. apply NoDup_Permutation; [done|apply NoDup_singleton|]. intros de. rewrite Hin. set_solver. }
  set (p := 2 / (2 + al)) in *. set (q := al / (2 + al)) in *.
  assert (0 < p) as Hp0 by (apply Rdiv_lt_0_compat; lra). assert (0 < q) as Hq0 by (apply Rdiv_lt_0_compat; lra).
  assert (p + q = 1) as Hpq by (unfold p, q; field; lra).
  change (i_domains (C72_irm lg W rel)) with W in Ei. rewrite shared_cons in Ei. rewrite (Rsum_perm _ _ (fmap_Permutation _ _ _ Hopt)) in Ei.
  change (Rsum ((fun ch : list (Z * R) => Rprod ch.*2 * default 0 (block_lik rel ch.*1 true)) <$> cartesian (opt_of W <$> [("d", 3%Z); ("d", 3%Z)])))
    with (separate (opt_of W) [("d", 3%Z); ("d", 3%Z)] (fun z => default 0 (block_lik rel z true))) in Er.
  rewrite separate_cons in Er. rewrite (Rsum_perm _ _ (fmap_Permutation _ _ _ Hopt)) in Er.
  assert (forall f, separate (opt_of W) [("d", 3%Z)] f = p * f [0%Z] + q * f [t]) as E1.
  { intros f. rewrite separate_cons, (Rsum_perm _ _ (fmap_Permutation _ _ _ Hopt)). rewrite !fmap_cons, fmap_nil, !Rsum_cons, Rsum_nil.
    unfold separate. simpl. unfold Rprod, Rsum. simpl. lra. }
  rewrite !fmap_cons, fmap_nil, !Rsum_cons, Rsum_nil in Er, Ei. rewrite !E1 in Er. cbn [fst snd] in Er, Ei.
  rewrite !(C72_block_lik lg rel _ Hb) in Er.
  assert (forall x, shared (opt_of W) [] (fun m => default 0 (match mapM (fun de => <[("d", 3%Z) := x]> m !! de) [("d", 3%Z); ("d", 3%Z)] with
     Some z => block_lik rel z true | None => None end)) = if decide ([x; x] = [0; 0]%Z) then 3 / 4 else 1 / 2) as E2.
  { intros x. unfold shared. generalize (fun z => C72_block_lik lg rel z Hb). generalize (block_lik rel). intros bl HB. simpl. rewrite lookup_insert. simpl. rewrite HB. unfold Rprod, Rsum. simpl. lra. }
  rewrite !E2 in Ei. rewrite decide_True in Ei by done. rewrite decide_False in Ei by congruence.
  rewrite decide_True in Er by done. rewrite !decide_False in Er by congruence. cbn [default from_option] in Er. unfold default, from_option, Datatypes.id in Er.
  assert (0 < p * q) as Hpq0 by by apply Rmult_lt_0_compat.
  assert (p * p = p - p * q) as Hpp by (replace q with (1 - p) by lra; ring).
  assert (q * q = q - p * q) as Hqq by (replace p with (1 - q) by lra; ring).
  clearbody p q. assert (eexp lp' < eexp lp) as Hlt. { rewrite Ei, Er. lra. }
  assert (0 < eexp lp') as Hpos. { rewrite Er. nra. }
  destruct lp as [lp|]; [|simpl in Hlt; lra]. destruct lp' as [lp'|]; [|simpl in Hpos; lra].
  exists lp, lp', r', r1'. done.
Qed.
Print Assumptions C72_repeated_refuted.

(** The hypotheses of the theorems above hold after those two observations, for a
    question about a known and an unseen entity. *)
Example C72_example : forall lg, exists W (rel : relation (bb_dist lg)) ir A,
  irm_holds (fun name => if decide (name = "r") then Some 2%nat else None) ir A /\ i_domains ir = W /\ world_holds W A /\ positive W /\
  all_fresh_determined ir /\ i_rels ir !! "r" = Some (AClean (bb_dist lg) rel) /\ rel_holds (bb_lawful lg) A rel /\
  r_doms rel = ["d"; "d"]%string /\ fresh_fixed rel /\ size (r_data rel) = 2%nat /\
  seat A "d" 1 = Some 0%Z /\ seat A "d" 3 = None /\
  (forall i j d e, i <> j -> r_doms rel !! i = Some d -> r_doms rel !! j = Some d ->
     [1; 3]%Z !! i = Some e -> [1; 3]%Z !! j = Some e -> is_Some (seat A d e)) /\
  (forall d e, (d, e) ∈ zip (r_doms rel) [1; 3]%Z -> exists a, A !! d = Some a /\ a <> ∅) /\
  forall r r1, exists st st', irm_logp ir [("r", [1; 3]%Z, true)] r = Ok st /\ rel_logp (bb_dist lg) W rel [1; 3]%Z true r1 = Ok st'.
Proof.
  intros lg. destruct (C72_setup lg) as (dm & rel0 & W & rel & Hdm & Hn & Hrun & HW & Hp & Hrel & Hds & Hdata & Hb).
  exists W, rel, (C72_irm lg W rel), C11_A. rewrite Hds, Hdata. split_and!; try done.
  - by apply (C72_irm_holds lg W rel HW Hrel Hds Hdata Hb).
  - intros name a. simpl. by intros [_ <-]%lookup_singleton_Some.
  - intros i j d e Hij _ _ Hi Hj. destruct i as [|[|i]], j as [|[|j]]; simplify_eq/=.
  - intros d e [[= -> ->]|[[= -> ->]|[]%elem_of_nil]%elem_of_cons]%elem_of_cons; eexists; (split; [done|]);
      intros E; apply (f_equal (lookup 1%Z)) in E; done.
  - intros r r1. destruct (C72_calls_succeed lg W rel 1 3 true r r1 HW Hp Hrel Hds Hdata Hb) as [[st H1] [st' H2]]. eauto.
Qed.
