(** Independent choices and shared choices: CleanRelation::logp against IRM::logp. *)
From Coq Require Import String Ascii.
From stdpp Require Import gmap strings sorting.
From Coq Require Import ZArith Reals Lra Lia.
From Verif Require Import M_base M_math M_crp M_domain M_dist M_relation M_noisy M_irm M_logp M_rel_logp
  S_math S_crp S_crp_state S_relation S_irm S_logp S_rel_logp P_base P_math P_sum P_crp P_crp_score P_domain P_relation P_irm_gibbs P_logp P_rel_logp.
Local Open Scope R_scope.
Local Arguments Rprod : simpl never.

Lemma cartesian_cons_sum (l : list (Z * R)) (ls : list (list (Z * R))) (g : list (Z * R) -> R) :
  Rsum (g <$> cartesian (l :: ls)) = Rsum ((fun x => Rsum ((fun ch => g (x :: ch)) <$> cartesian ls)) <$> l).
Proof.
  simpl cartesian. rewrite fmap_bind_l. generalize (cartesian ls). intros C.
  induction l as [|x l IH]; [done|]. csimpl. rewrite Rsum_app, Rsum_cons, IH. f_equal.
  by rewrite <- list_fmap_compose.
Qed.

Lemma Rsum_exchange {A B} (f : A -> B -> R) (l : list A) (k : list B) :
  Rsum ((fun x => Rsum ((fun y => f x y) <$> k)) <$> l) = Rsum ((fun y => Rsum ((fun x => f x y) <$> l)) <$> k).
Proof.
  induction l as [|x l IH]; csimpl.
  - rewrite Rsum_nil. induction k as [|y k IHk]; csimpl; [done|]. rewrite Rsum_cons, <- IHk. unfold Rsum. simpl. lra.
  - rewrite Rsum_cons, IH. clear IH. induction k as [|y k IHk]; csimpl; rewrite ?Rsum_nil, ?Rsum_cons; [lra|]. rewrite <- IHk. lra.
Qed.

Section Choices.
Context (opt : (string * Z) -> list (Z * R)).
Notation ents_t := (list (string * Z)).
Implicit Types (ents des : ents_t) (m : gmap (string * Z) Z).

Definition shared (ents : ents_t) (g : gmap (string * Z) Z -> R) : R :=
  Rsum ((fun ch : list (Z * R) => Rprod ch.*2 * g (list_to_map (zip ents ch.*1))) <$> cartesian (opt <$> ents)).
Definition separate (des : ents_t) (f : list Z -> R) : R :=
  Rsum ((fun ch : list (Z * R) => Rprod ch.*2 * f ch.*1) <$> cartesian (opt <$> des)).

Lemma separate_cons de des f : separate (de :: des) f = Rsum ((fun x => x.2 * separate des (fun z => f (x.1 :: z))) <$> opt de).
Proof.
  unfold separate. rewrite fmap_cons, cartesian_cons_sum. f_equal. apply list_fmap_ext. intros _ x _.
  rewrite <- Rsum_map_scal. f_equal. apply list_fmap_ext. intros _ ch _. csimpl. rewrite Rprod_cons. lra.
Qed.
Lemma shared_cons de ents g : shared (de :: ents) g = Rsum ((fun x => x.2 * shared ents (fun m => g (<[de := x.1]> m))) <$> opt de).
Proof.
  unfold shared. rewrite fmap_cons, cartesian_cons_sum. f_equal. apply list_fmap_ext. intros _ x _.
  rewrite <- Rsum_map_scal. f_equal. apply list_fmap_ext. intros _ ch _. csimpl. rewrite Rprod_cons. lra.
Qed.

Lemma shared_ext ents : forall g g',
  (forall m, (forall de, de ∈ ents -> exists t p, m !! de = Some t /\ (t, p) ∈ opt de) -> g m = g' m) -> shared ents g = shared ents g'.
Proof.
  induction ents as [|de ents IH]; intros g g' H.
  - unfold shared. simpl. rewrite (H ∅); [done|]. intros de Hin. by apply elem_of_nil in Hin.
  - rewrite !shared_cons. f_equal. apply list_fmap_ext. intros i [t p] Hi. cbn [fst snd]. f_equal. apply IH. intros m Hm. apply H.
    intros de' Hin. destruct (decide (de' = de)) as [->|Hne].
    + exists t, p. rewrite lookup_insert. split; [done|]. by eapply elem_of_list_lookup_2.
    + rewrite lookup_insert_ne by done. apply Hm. by apply elem_of_cons in Hin as [?|?].
Qed.

Lemma shared_perm ents ents' g : ents ≡ₚ ents' -> NoDup ents -> shared ents g = shared ents' g.
Proof.
  intros Hp. revert g. induction Hp as [|de l l' Hp IH|x y l|l1 l2 l3 H1 IH1 H2 IH2]; intros g Hnd; [done| | |].
  - rewrite !shared_cons. f_equal. apply list_fmap_ext. intros _ z _. rewrite IH; [done|]. by apply NoDup_cons in Hnd as [_ ?].
  - rewrite !shared_cons. apply NoDup_cons in Hnd as [Hni _].
    trans (Rsum ((fun a => Rsum ((fun b => a.2 * (b.2 * shared l (fun m => g (<[y := a.1]> (<[x := b.1]> m))))) <$> opt x)) <$> opt y)).
    { f_equal. apply list_fmap_ext. intros _ a _. rewrite shared_cons. by rewrite Rsum_map_scal. }
    rewrite (Rsum_exchange (fun a b => a.2 * (b.2 * shared l (fun m => g (<[y := a.1]> (<[x := b.1]> m)))))).
    f_equal. apply list_fmap_ext. intros _ b _. rewrite shared_cons, <- Rsum_map_scal. f_equal. apply list_fmap_ext. intros _ a _.
    rewrite (shared_ext l (fun m => g (<[y := a.1]> (<[x := b.1]> m))) (fun m => g (<[x := b.1]> (<[y := a.1]> m)))); [lra|].
    intros m _. f_equal. apply insert_commute. intros ->. apply Hni. left.
  - rewrite IH1 by done. apply IH2. by rewrite <- H1.
Qed.

(** Choosing for every position on its own is choosing for every entity once, if
    entities that occur again have only one option. *)
Lemma separate_shared des : forall (F : option (list Z) -> R) ents,
  (forall l1 de l2, des = l1 ++ de :: l2 -> de ∈ l2 -> exists t, opt de = [(t, 1)]) ->
  NoDup ents -> (forall de, de ∈ ents <-> de ∈ des) ->
  separate des (fun z => F (Some z)) = shared ents (fun m => F (mapM (fun de => m !! de) des)).
Proof.
  induction des as [|de des IH]; intros F ents Hrep Hnd Hin.
  - destruct ents as [|e ents]; [done|]. exfalso. eapply (not_elem_of_nil e). apply Hin. left.
  - assert (forall l1 de' l2, des = l1 ++ de' :: l2 -> de' ∈ l2 -> exists t, opt de' = [(t, 1)]) as Hrep'.
    { intros l1 de' l2 E Hd. apply (Hrep (de :: l1) de' l2); [by rewrite E|done]. }
    rewrite separate_cons. destruct (decide (de ∈ des)) as [Hd|Hd].
    + destruct (Hrep [] de des eq_refl Hd) as [t Ht]. rewrite Ht. csimpl. rewrite Rsum_cons, Rsum_nil, Rmult_1_l, Rplus_0_r.
      etrans; [apply (IH (fun o => F (match o with Some z => Some (t :: z) | None => None end)) ents Hrep' Hnd)|].
      { intros x. rewrite Hin, elem_of_cons. split; [|by right]. by intros [->|?]. }
      apply shared_ext. intros m Hm. destruct (Hm de) as (t' & p & Hmd & Hop); [apply Hin; left|].
      rewrite Ht in Hop. apply elem_of_list_singleton in Hop. injection Hop as -> _. simpl. rewrite Hmd. simpl. by destruct (mapM _ des).
    + assert (de ∈ ents) as He by (apply Hin; left). apply elem_of_Permutation in He as [ents' Hp].
      rewrite (shared_perm _ _ _ Hp Hnd), shared_cons. rewrite Hp in Hnd. apply NoDup_cons in Hnd as [Hni Hnd].
      f_equal. apply list_fmap_ext. intros _ [t p] _. cbn [fst snd]. f_equal.
      etrans; [apply (IH (fun o => F (match o with Some z => Some (t :: z) | None => None end)) ents' Hrep' Hnd)|].
      2:{ apply shared_ext. intros m _. simpl. rewrite lookup_insert. simpl.
        assert (mapM (fun x => <[de := t]> m !! x) des = mapM (fun x => m !! x) des) as ->; [|by destruct (mapM _ des)].
        clear -Hd. induction des as [|x des IHd]; [done|]. simpl. apply not_elem_of_cons in Hd as [Hx Hd].
        rewrite lookup_insert_ne by done. by rewrite IHd. }
      intros x. split.
      * intros Hx. assert (x ∈ ents) as Hx' by (rewrite Hp; by right). apply Hin, elem_of_cons in Hx' as [->|?]; done.
      * intros Hx. assert (x ∈ ents) as Hx' by (apply Hin; by right). rewrite Hp in Hx'. apply elem_of_cons in Hx' as [->|?]; done.
Qed.
End Choices.

Section Agree.
Context {V : Type}.
Implicit Types (ir : irm V).

Lemma add_entity_opts W (u : universe) de u' : add_entity W u de = Ok u' ->
  universe_options u = opt_of W <$> u.*1 -> universe_options u' = opt_of W <$> u'.*1.
Proof.
  unfold add_entity. destruct (in_universe u de); [by intros [= <-]|]. intros H Hu.
  apply obind_Ok in H as (dm & Hdm & H). apply obind_Ok in H as (w & _ & H). apply obind_Ok in H as (o & Ho & [= <-]).
  unfold deref in Hdm. destruct (W !! de.1) as [dm'|] eqn:E; [|done]. injection Hdm as ->.
  unfold universe_options in *. rewrite !fmap_app, Hu. f_equal. csimpl. f_equal. unfold opt_of. by rewrite E, Ho.
Qed.
Lemma add_entities_opts W des : forall (u : universe) u', foldM (add_entity W) u des = Ok u' ->
  universe_options u = opt_of W <$> u.*1 -> universe_options u' = opt_of W <$> u'.*1.
Proof.
  induction des as [|de des IH]; intros u u' H Hu; simpl in H; [by injection H as <-|].
  apply obind_Ok in H as (u1 & H1 & H). eapply IH; [exact H|]. by eapply add_entity_opts.
Qed.

Lemma irm_logp_single ar ir A name (D : Dist V) (rel : relation D) items v r lp r' :
  irm_holds ar ir A -> positive (i_domains ir) -> all_fresh_determined ir ->
  i_rels ir !! name = Some (AClean D rel) -> r_doms rel <> [] ->
  irm_logp ir [(name, items, v)] r = Ok (lp, r') ->
  exists ents : list (string * Z), NoDup ents /\ (forall de : string * Z, de ∈ ents <-> de ∈ zip (r_doms rel) items) /\
    eexp lp = shared (opt_of (i_domains ir)) ents (fun m =>
      default 0 (match mapM (fun de => m !! de) (zip (r_doms rel) items) with Some z => block_lik rel z v | None => None end)).
Proof.
  intros Hh Hp Hdet Ha Hne H. pose proof (irm_logp_inv ir _ r _ H) as [HS Hnd].
  destruct (add_observations_spec ir A [(name, items, v)] ∅ [] []) as (seen & u & Hf & Hnd' & Hin & HF); try done.
  { apply (ih_world _ _ _ Hh). }
  { intros n a d Hn Hd. apply (ih_used _ _ _ Hh). eauto. }
  { split_and!; [constructor| |constructor]. done. }
  assert (universe_options u = opt_of (i_domains ir) <$> u.*1) as Hopt.
  { pose proof Hf as Hf'. simpl in Hf'. apply obind_Ok in Hf' as ([s1 u1] & Hf1 & [= -> ->]).
    apply obind_Ok in Hf1 as (? & _ & Hf1). rewrite Ha in Hf1. cbn [at_ obind] in Hf1. apply obind_Ok in Hf1 as (? & _ & Hf1).
    apply obind_Ok in Hf1 as (u2 & Hf1 & [= _ ->]). by eapply add_entities_opts. }
  assert (forall de, de ∈ u.*1 <-> de ∈ zip (r_doms rel) items) as Hin'.
  { intros de. rewrite Hin. simpl. unfold observation_ents. simpl. rewrite Ha. by rewrite app_nil_r. }
  assert (Forall (fun p : (string * Z) * (list Z * list R) => length p.2.2 = length p.2.1) u) as HF2.
  { eapply Forall_impl; [exact HF|]. by intros p (? & ? & ? & ? & ? & _). }
  assert (u <> []) as Hu0.
  { intros ->. apply Forall_singleton in HS as (a' & Ha' & Hl). simpl in Ha', Hl. rewrite Ha in Ha'. injection Ha' as <-. simpl in Hl.
    destruct (r_doms rel) as [|d ds]; [done|]. destruct items as [|e es]; [done|]. apply (not_elem_of_nil (d, e)). apply Hin'. left. }
  destruct (irm_logp_tups u HF2) as (tups & Et1 & Et2 & Hti).
  exists u.*1. split_and!; [done|done|]. unfold irm_logp in H. rewrite Hf in H. cbn [obind] in H. rewrite product_Ok in H by by destruct u.
  cbn [obind] in H. change (fmap ?f u) with (map f u) in H. rewrite Et1 in H.
  apply obind_Ok in H as ([logps r1] & H & H2).
  pose proof (combos_inv ir u _ Hdet HF2 tups [] r _ Hti H) as HFc.
  destruct (combos_spec ir u [(name, items, v)] Hdet HF2 tups [] r) as (logps' & r2 & Hc & E).
  { apply Forall_forall. intros tup Htup. split; [by apply (proj1 (Forall_forall _ _) Hti)|]. by apply (proj1 (Forall_forall _ _) HFc). }
  rewrite H in Hc. injection Hc as -> <-. cbn [app] in *. apply obind_Ok in H2 as (lp2 & H2 & [= <- <-]).
  destruct (logsumexp_spec logps') as (lp' & Hlp & Elp).
  { intros ->. done. }
  rewrite Hlp in H2. injection H2 as <-. rewrite Elp. unfold shared. rewrite <- Hopt, Et2.
  change (fmap ?f (map ?g tups)) with (map f (map g tups)). rewrite map_map. rewrite E. f_equal.
  change (fmap ?f tups) with (map f tups). apply map_ext. intros tup. unfold choice_prob. f_equal.
  unfold joint_lik. rewrite list_fmap_singleton, Rprod_cons. unfold Rprod at 1. simpl foldr. rewrite Rmult_1_r. f_equal.
  unfold observation_lik. rewrite Ha. unfold block_lik.
  erewrite (mapM_ext (fun p : string * Z => picked u.*1 (map snd tup) p.1 p.2)); [reflexivity|]. by intros [d e].
Qed.
End Agree.
