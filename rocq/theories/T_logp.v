(** Theorems about predictive probabilities: C44. *)
From Coq Require Import String Ascii.
From stdpp Require Import gmap strings sorting.
From Coq Require Import ZArith Reals Lra Lia.
From Verif Require Import M_base M_math M_crp M_domain M_dist M_relation M_noisy M_irm M_logp
  S_math S_crp S_crp_state S_relation S_irm S_logp P_base P_math P_crp P_crp_score P_domain P_relation P_irm P_irm_schema P_irm_history
  P_irm_gibbs P_irm_pos P_logp P_tally P_reached T_irm.
Local Open Scope string_scope.
Local Open Scope R_scope.

(** * C44 *)
(** IRM::logp of observations of clean relations.  Let [ents] be the entities the
    observations mention.  The probability reported is the sum, over all ways [ch]
    of choosing for every entity one of its possible clusters, of the product of the
    probabilities of the choices times the probability of the observations given the
    clusters; an entity mentioned by several observations is chosen once.  The call
    succeeds exactly when every observation can be scored under every choice. *)
Theorem C44_mixture {V} : forall ar (ir : irm V) A obs r,
  irm_holds ar ir A -> positive (i_domains ir) -> all_fresh_determined ir ->
  Forall (observation_shape ir) obs -> NoDup obs.*1 -> (exists ob d e, ob ∈ obs /\ observation_mentions ir ob d e) ->
  exists ents opts, NoDup ents /\
    (forall d e, (d, e) ∈ ents <-> exists ob, ob ∈ obs /\ observation_mentions ir ob d e) /\
    Forall2 (fun de l => exists dm a, i_domains ir !! de.1 = Some dm /\ A !! de.1 = Some a /\
      cluster_options (crp_alpha (dom_crp dm)) a de.2 l) ents opts /\
    ((exists st, irm_logp ir obs r = Ok st) <->
       Forall (fun ch => Forall (fun ob => is_Some (observation_lik ir (picked ents ch) ob)) obs) (cartesian opts)) /\
    (forall lp r', irm_logp ir obs r = Ok (lp, r') ->
      eexp lp = Rsum ((fun ch : list (Z * R) => Rprod ch.*2 * joint_lik ir (picked ents ch) obs) <$> cartesian opts)).
Proof. intros. by eapply irm_logp_spec. Qed.
Print Assumptions C44_mixture.

(** Repeated or ill-formed observations are never scored. *)
Theorem C44_ill_formed_rejected {V} : forall (ir : irm V) obs r st,
  irm_logp ir obs r = Ok st -> Forall (observation_shape ir) obs /\ NoDup obs.*1.
Proof. intros ir obs r st. apply irm_logp_inv. Qed.
Print Assumptions C44_ill_formed_rejected.

(** The weights of the mixture sum to one, provided that every entity without a
    cluster belongs to a domain that has entities (or has concentration 1). *)
Theorem C44_weights_sum {V} : forall ar (ir : irm V) A ents opts,
  irm_holds ar ir A -> positive (i_domains ir) ->
  Forall2 (fun de l => exists dm a, i_domains ir !! de.1 = Some dm /\ A !! de.1 = Some a /\
    cluster_options (crp_alpha (dom_crp dm)) a de.2 l) ents opts ->
  (forall d e dm, (d, e) ∈ ents -> i_domains ir !! d = Some dm -> dom_items dm <> ∅ \/ crp_alpha (dom_crp dm) = 1) ->
  Rsum ((fun ch : list (Z * R) => Rprod ch.*2) <$> cartesian opts) = 1.
Proof.
  intros ar ir A ents opts Hh Hp H2 Hne. rewrite cartesian_prod.
  induction H2 as [|[d e] l ents opts (dm & a & Hdm & Ha & Hop) H2 IH]; [done|]. cbn [fst snd] in *. rewrite fmap_cons, Rprod_cons, IH.
  2:{ intros d' e' dm' Hin. apply (Hne d' e'). by right. }
  pose proof (ih_world _ _ _ Hh d) as Hw. rewrite Hdm, Ha in Hw. destruct Hw as [Hit Hs].
  rewrite (cluster_options_sum _ a e l Hs (Hp _ _ Hdm) Hop). destruct (decide _) as [|Hn]; [lra|].
  destruct (Hne d e dm) as [Hx|Hx]; [left|done| |].
  - exfalso. apply Hn. right. intros ->. apply Hx. by rewrite Hit, dom_empty_L.
  - rewrite Hx. lra.
Qed.
Print Assumptions C44_weights_sum.

(** Well-formed observations whose values every object of their class can score are scored. *)
Theorem C44_succeeds {V} : forall ar (ir : irm V) A obs r,
  irm_holds ar ir A -> positive (i_domains ir) -> all_fresh_determined ir ->
  Forall (observation_shape ir) obs -> NoDup obs.*1 -> (exists ob d e, ob ∈ obs /\ observation_mentions ir ob d e) ->
  (forall name items v, (name, items, v) ∈ obs -> exists D rel, i_rels ir !! name = Some (AClean D rel) /\
     forall s, exists lp, d_logp D s v = Ok lp) ->
  exists st, irm_logp ir obs r = Ok st.
Proof.
  intros ar ir A obs r Hh Hp Hdet Hsh Hnd Hne Hlp.
  destruct (irm_logp_spec ar ir A obs r Hh Hp Hdet Hsh Hnd Hne) as (ents & opts & Hnde & Hin & H2 & Hok & _).
  apply Hok. apply Forall_forall. intros ch Hch. apply Forall_forall. intros [[name items] v] Hob.
  destruct (Hlp _ _ _ Hob) as (D & rel & Ha & Hs). unfold observation_lik. rewrite Ha.
  destruct (mapM _ _) as [z|] eqn:Em.
  - destruct (Hs (default (d_new D (r_spec rel) []).1 (r_clusters rel !! z))) as [lp ->]. eauto.
  - exfalso. apply eq_None_not_Some in Em. apply Em. apply mapM_is_Some. apply Forall_forall. intros [d e] Hde. cbn [fst snd].
    assert ((d, e) ∈ ents) as Hen. { apply Hin. exists (name, items, v). split; [done|]. exists (AClean D rel). done. }
    apply elem_of_list_lookup in Hen as [i Hi].
    apply elem_of_cartesian in Hch. pose proof (Forall2_length _ _ _ H2) as Hl2. pose proof (Forall2_length _ _ _ Hch) as Hl1.
    destruct (lookup_lt_is_Some_2 ch i) as [[t q] Ht]. { rewrite Hl1, <- Hl2. by eapply lookup_lt_Some. }
    exists t. unfold picked. apply elem_of_list_to_map_1.
    + rewrite fst_zip; [done|]. rewrite fmap_length. lia.
    + apply elem_of_list_lookup. exists i. apply lookup_zip_with_Some. exists (d, e), t. split_and!; try done.
      by rewrite list_lookup_fmap, Ht.
Qed.
Print Assumptions C44_succeeds.

(** When all entities have clusters, the result is the probability of the
    observations under the blocks they fall in. *)
Theorem C44_known_entities {V} : forall ar (ir : irm V) A obs r lp r',
  irm_holds ar ir A -> positive (i_domains ir) -> all_fresh_determined ir ->
  (exists ob d e, ob ∈ obs /\ observation_mentions ir ob d e) ->
  (forall ob d e, ob ∈ obs -> observation_mentions ir ob d e -> is_Some (seat A d e)) ->
  irm_logp ir obs r = Ok (lp, r') ->
  eexp lp = joint_lik ir (seat A) obs.
Proof.
  intros ar ir A obs r lp r' Hh Hp Hdet Hne Hkn H.
  pose proof (irm_logp_inv ir obs r _ H) as [Hsh Hnd].
  destruct (irm_logp_spec ar ir A obs r Hh Hp Hdet Hsh Hnd Hne) as (ents & opts & Hnde & Hin & H2 & _ & Heq).
  rewrite (Heq _ _ H). clear Heq H.
  assert (Forall2 (fun (de : string * Z) (l : list (Z * R)) => exists t, seat A de.1 de.2 = Some t /\ l = [(t, 1)]) ents opts) as H2'.
  { apply Forall2_same_length_lookup. split; [by eapply Forall2_length|]. intros i [d e] l Hi Hl.
    destruct (Forall2_lookup_lr _ _ _ _ _ _ H2 Hi Hl) as (dm & a & Hdm & Ha & Hop). cbn [fst snd] in *.
    assert ((d, e) ∈ ents) as Hi' by by eapply elem_of_list_lookup_2. apply Hin in Hi' as (ob & Hob & Hm).
    destruct (Hkn ob d e Hob Hm) as [t Ht]. exists t. split; [done|]. unfold seat in Ht. rewrite Ha in Ht. cbn in Ht.
    unfold cluster_options in Hop. by rewrite Ht in Hop. }
  assert (exists ts, opts = (fun t => [(t, 1)]) <$> ts /\ Forall2 (fun (de : string * Z) t => seat A de.1 de.2 = Some t) ents ts) as (ts & -> & Hts).
  { clear -H2'. induction H2' as [|de l ents opts (t & Ht & ->) _ (ts & -> & IH)]; [by exists []|].
    exists (t :: ts). split; [done|]. by constructor. }
  assert (cartesian ((fun t : Z => [(t, 1)]) <$> ts) = [(fun t => (t, 1)) <$> ts]) as ->.
  { clear. induction ts as [|t ts IH]; [done|]. rewrite fmap_cons. simpl. by rewrite IH. }
  rewrite list_fmap_singleton. unfold Rsum. simpl. rewrite Rplus_0_r.
  assert (Rprod ((fun t : Z => (t, 1)) <$> ts).*2 = 1) as ->.
  { clear. induction ts as [|t ts IH]; [done|]. rewrite !fmap_cons, Rprod_cons, IH. simpl. lra. }
  rewrite Rmult_1_l. unfold joint_lik. f_equal. apply Forall_fmap_ext_1, Forall_forall. intros [[name items] v] Hob.
  f_equal. unfold observation_lik. destruct (i_rels ir !! name) as [[D rel|n]|] eqn:Ha; [|done|done].
  assert (forall l, l ⊆ zip (r_doms rel) items ->
    mapM (fun p => picked ents ((fun t => (t, 1)) <$> ts) p.1 p.2) l = mapM (fun p => seat A p.1 p.2) l) as Hm.
  { induction l as [|[d e] l IH]; [done|]. intros Hsub. simpl. rewrite IH by (intros x Hx; apply Hsub; by right).
    assert (picked ents ((fun t => (t, 1)) <$> ts) d e = seat A d e) as ->; [|done].
    assert ((d, e) ∈ ents) as Hde. { apply Hin. exists (name, items, v). split; [done|]. exists (AClean D rel). split; [done|]. apply Hsub. left. }
    unfold picked. rewrite <- list_fmap_compose. unfold compose. cbn [fst]. rewrite list_fmap_id.
    apply elem_of_list_lookup in Hde as [i Hi]. destruct (Forall2_lookup_l _ _ _ _ _ Hts Hi) as (t & Hti & Hse). cbn [fst snd] in Hse.
    rewrite Hse. apply elem_of_list_to_map_1.
    - rewrite fst_zip; [done|]. by rewrite (Forall2_length _ _ _ Hts).
    - apply elem_of_list_lookup. exists i. apply lookup_zip_with_Some. by exists (d, e), t. }
  by rewrite Hm.
Qed.
Print Assumptions C44_known_entities.

(** A domain whose entities have all been removed keeps its concentration; the
    mixture is then not a probability: an observation that is certain under every
    block gets probability 1/2. *)
Definition C44_empty_irm (c : crp) : irm bool :=
  Irm {[ "r" := TClean ["d"] true tally_dist tt ]} {[ "d" := Dom ∅ c ]}
    {[ "r" := AClean tally_dist (Rel tally_dist ["d"] tt ∅ ∅ {[ "d" := ∅ ]}) ]} {[ "d" := {["r"]} ]} ∅.
Theorem C44_weights_sum_refuted : forall lg, exists es c A,
  foldM (crp_event_do lg) crp_new es = Ok c /\
  irm_holds (schema_arity (i_schema (C44_empty_irm c))) (C44_empty_irm c) A /\ positive (i_domains (C44_empty_irm c)) /\
  (forall (s : d_state tally_dist) v, d_logp tally_dist s v = Ok (Some 0)) /\
  forall v r, exists lp r', irm_logp (C44_empty_irm c) [("r", [1%Z], v)] r = Ok (Some lp, r') /\ exp lp = 1 / 2.
Proof.
  intros lg. destruct (bad_history_state lg) as (c & Hc & Hh & Hal).
  exists bad_history, c, {[ "d" := ∅ ]}.
  assert (forall name a, i_rels (C44_empty_irm c) !! name = Some a -> name = "r" /\ a = AClean tally_dist (Rel tally_dist ["d"] tt ∅ ∅ {[ "d" := ∅ ]})) as Hr.
  { intros name a. simpl. intros [<- <-]%lookup_singleton_Some. done. }
  assert (irm_holds (schema_arity (i_schema (C44_empty_irm c))) (C44_empty_irm c) {[ "d" := ∅ ]}) as Hhold.
  { split.
    - intros d. simpl. destruct (decide (d = "d")) as [->|Hne].
      + rewrite !lookup_singleton. split; [by rewrite dom_empty_L|done].
      + rewrite !lookup_singleton_ne by done. done.
    - intros name a Ha. apply Hr in Ha as [-> ->]. exists (reached_law tally_lawful). split.
      + simpl. intros d. rewrite elem_of_list_singleton. intros ->. rewrite dom_singleton_L. set_solver.
      + simpl. done.
      + simpl. intros d. destruct (decide (d = "d")) as [->|Hne].
        * rewrite lookup_singleton. split; [left|]. intros e. rewrite decide_True; [done|].
          unfold observations_of. rewrite dom_empty_L. set_solver.
        * rewrite lookup_singleton_ne by done. set_solver.
      + destruct (law_new _ (reached_law tally_lawful) tt []) as [hy _]. exists (fun _ => hy). intros z. simpl. unfold values_in. rewrite map_to_list_empty. done.
    - intros name a Ha. apply Hr in Ha as [-> ->]. done.
    - intros name. simpl. destruct (decide (name = "r")) as [->|Hne].
      + rewrite !lookup_singleton. done.
      + rewrite !lookup_singleton_ne by done. done.
    - intros d. rewrite dom_singleton_L, elem_of_singleton. split.
      + intros ->. eexists "r", _. split; [done|]. left.
      + intros (name & a & Ha & Hd). apply Hr in Ha as [-> ->]. simpl in Hd. by apply elem_of_list_singleton in Hd.
    - intros d. simpl. destruct (decide (d = "d")) as [->|Hne].
      + rewrite lookup_singleton. split; [set_solver|]. intros name. rewrite elem_of_singleton. split.
        * intros ->. eexists. split; [done|]. left.
        * intros (a & Ha & _). by apply Hr in Ha as [-> _].
      + rewrite lookup_singleton_ne by done. rewrite dom_singleton_L. set_solver. }
  assert (positive (i_domains (C44_empty_irm c))) as Hpos.
  { intros d dm. simpl. intros [<- <-]%lookup_singleton_Some. simpl. lra. }
  split_and!; try done.
  intros v r.
  assert (crp_N c = 0%Z) as HN by by apply (N_zero_iff c ∅ Hh).
  assert (crp_tables_weights c = Ok {[0%Z := 1]}) as Hw.
  { unfold crp_tables_weights. by rewrite bool_decide_eq_true_2. }
  destruct (irm_logp_spec _ (C44_empty_irm c) _ [("r", [1%Z], v)] r Hhold Hpos) as (ents & opts & Hnd & Hin & H2 & Hok & Heq).
  { intros name a Ha. apply Hr in Ha as [-> ->]. done. }
  { constructor; [|constructor]. eexists. split; [done|]. done. }
  { apply NoDup_singleton. }
  { exists ("r", [1%Z], v), "d", 1%Z. split; [left|]. eexists. split; [done|]. left. }
  assert (ents = [("d", 1%Z)]) as ->.
  { apply Permutation_singleton_r. apply NoDup_Permutation; [done|apply NoDup_singleton|]. intros [d e]. rewrite Hin, elem_of_list_singleton. split.
    - intros (ob & ->%elem_of_list_singleton & a & Ha & Hm). apply Hr in Ha as [_ ->]. simpl in Hm. by apply elem_of_list_singleton in Hm.
    - intros [= -> ->]. eexists. split; [left|]. eexists. split; [done|]. left. }
  inversion H2 as [|? l ? opts' Hl H2' E1 E2]. subst opts. inversion H2'. subst opts'. clear H2 H2'.
  destruct Hl as (dm & a & Hdm & Ha & Hop). cbn [fst snd i_domains C44_empty_irm] in Hdm, Ha, Hop. rewrite lookup_singleton in Hdm. rewrite lookup_singleton in Ha. injection Hdm as <-. injection Ha as <-.
  unfold cluster_options in Hop. rewrite lookup_empty in Hop. rewrite decide_True in Hop by done. destruct Hop as [_ ->]. cbn [dom_crp] in Hok, Heq. rewrite Hal in Hok, Heq.
  change (cartesian [[(0%Z, / 2)]]) with [[(0%Z, / 2)]] in Hok, Heq.
  assert (observation_lik (C44_empty_irm c) (picked [("d", 1%Z)] [(0%Z, / 2)]) ("r", [1%Z], v) = Some 1) as Hlik.
  { unfold observation_lik. cbn [i_rels C44_empty_irm]. rewrite lookup_singleton. cbn [r_doms zip zip_with].
    assert (picked [("d", 1%Z)] [(0%Z, / 2)] "d" 1 = Some 0%Z) as Hpk by done.
    simpl. rewrite Hpk. simpl. by rewrite exp_0. }
  destruct (proj2 Hok) as [[lp r'] Hlp].
  { constructor; [|constructor]. constructor; [|constructor]. by rewrite Hlik. }
  specialize (Heq _ _ Hlp). unfold joint_lik in Heq. rewrite !list_fmap_singleton in Heq.
  rewrite Hlik in Heq. unfold Rprod, Rsum in Heq. simpl in Heq.
  destruct lp as [lp|]; simpl in Heq; [|lra]. exists lp, r'. split; [done|]. lra.
Qed.
Print Assumptions C44_weights_sum_refuted.

(** Every object of the declared relation scores every value. *)
Definition t_scores {V} (t : t_rel V) : Prop :=
  match t with
  | TClean _ _ D _ => forall s v, exists lp, d_logp D s v = Ok lp
  | TNoisy _ _ _ _ _ => False
  end.
Example C44_example : exists ir0 ir A,
  irm_new C46_schema = Ok ir0 /\ foldM irm_do ir0 C46_calls = Ok ir /\
  irm_holds (schema_arity C46_schema) ir A /\ positive (i_domains ir) /\ all_fresh_determined ir /\
  Forall (observation_shape ir) [("r", [1; 8]%Z, true); ("r", [3; 8]%Z, false)] /\
  (exists d e, observation_mentions ir ("r", [1; 8]%Z, true) d e) /\
  (forall d e dm, i_domains ir !! d = Some dm -> observation_mentions ir ("r", [1; 8]%Z, true) d e -> dom_items dm <> ∅) /\
  (exists st, irm_logp ir [("r", [1; 8]%Z, true); ("r", [3; 8]%Z, false)] [] = Ok st) /\
  (exists st, irm_logp ir [("r", [1; 7]%Z, true)] [] = Ok st).
Proof.
  assert ((let* ir0 := irm_new C46_schema in let* ir := foldM irm_do ir0 C46_calls in
           Ok (dom_items <$> i_domains ir)) = Ok {[ "d" := {[ 1; 2 ]}; "c" := {[ 7 ]} ]}%Z) as H by by_compute.
  apply obind_Ok in H as (ir0 & H0 & H). apply obind_Ok in H as (ir & Hf & [= HA0]).
  assert (Forall irm_call_ok C46_calls) as Hok by (repeat (apply Forall_cons; split; [exact I|]); constructor).
  destruct (irm_new_tight C46_schema ir0 C46_schema_lawful H0) as (A0 & Hh0 & Ht0 & Hs0 & _).
  destruct (irm_history _ C46_calls ir0 A0 ir Hh0 Ht0 Hok Hf) as (A & Hh & _ & (Hs & _) & _).
  assert (positive (i_domains ir)) as Hp by (eapply irm_history_positive, Hf; [by eapply irm_new_positive|done..]).
  rewrite Hs0 in Hs.
  assert (C46_schema !! "r" = Some (TClean ["d"; "c"] true tally_dist tt)) as Hsr by (unfold C46_schema; by rewrite lookup_insert).
  destruct (irm_rel_lookup _ ir A "r" (TClean ["d"; "c"] true tally_dist tt) Hh) as (a & Ha & Hty & Hds); [by rewrite Hs|].
  assert (t_scores (TClean ["d"; "c"] true tally_dist tt)) as Hsc by (intros s v; by eexists).
  assert (all_fresh_determined ir) as Hdet.
  { intros name b Hb. destruct (irm_schema_lookup _ ir A name b Hh Hb) as (t & Ht & Ht' & _). rewrite Hs in Ht.
    unfold C46_schema in Ht. apply lookup_insert_Some in Ht as [[<- <-]|[_ Ht]].
    - assert (t_determined (TClean ["d"; "c"] true tally_dist tt)) as Hd by (split; [by_compute|done]).
      rewrite Ht' in Hd. destruct b; [apply Hd|done].
    - apply lookup_singleton_Some in Ht as [<- <-]. by destruct b. }
  rewrite Hty in Hsc. destruct a as [D rel|n]; [|done]. simpl in Hsc, Hds.
  assert (Forall (observation_shape ir) [("r", [1; 8]%Z, true); ("r", [3; 8]%Z, false)]) as Hsh.
  { repeat (constructor; [exists (AClean D rel); split; [done|]; simpl; by rewrite <- Hds|]). constructor. }
  assert (forall e2, observation_mentions ir ("r", [1%Z; e2], true) "d" 1) as Hm.
  { intros e2. exists (AClean D rel). split; [done|]. simpl. unfold mentions. rewrite <- Hds. left. }
  exists ir0, ir, A. split_and!; try done.
  - eauto.
  - intros d e dm Hd (b & Hb & Hbm). simpl in Hb, Hbm. rewrite Ha in Hb. injection Hb as <-. simpl in Hbm. rewrite <- Hds in Hbm.
    assert ((dom_items <$> i_domains ir) !! d = Some (dom_items dm)) as Hi by by rewrite lookup_fmap, Hd.
    rewrite HA0 in Hi. unfold mentions in Hbm. simpl in Hbm.
    apply elem_of_cons in Hbm as [[= -> ->]|Hbm]; [|apply elem_of_list_singleton in Hbm; injection Hbm as -> ->].
    + rewrite lookup_insert in Hi. injection Hi as <-. set_solver.
    + rewrite lookup_insert_ne, lookup_singleton in Hi by done. injection Hi as <-. set_solver.
  - eapply C44_succeeds; try done; [by_compute|by eexists _, _, _; split; [left|]|].
    intros name items v Hin. exists D, rel. split; [|intros s; apply Hsc].
    apply elem_of_cons in Hin as [[= -> _ _]|Hin]; [done|]. by apply elem_of_list_singleton in Hin as [= -> _ _].
  - eapply C44_succeeds; try done; [|by_compute|by eexists _, _, _; split; [left|]|].
    + constructor; [|constructor]. exists (AClean D rel). split; [done|]. simpl. by rewrite <- Hds.
    + intros name items v [= -> -> ->]%elem_of_list_singleton. exists D, rel. split; [done|]. intros s. apply Hsc.
Qed.
