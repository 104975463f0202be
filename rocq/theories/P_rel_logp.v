(** Proofs about CleanRelation::logp. *)
From Coq Require Import String Ascii.
From stdpp Require Import gmap strings sorting.
From Coq Require Import ZArith Reals Lra Lia.
From Verif Require Import M_base M_math M_crp M_domain M_dist M_relation M_noisy M_irm M_logp M_rel_logp
  S_math S_crp S_crp_state S_relation S_irm S_logp S_rel_logp P_base P_math P_sum P_crp P_crp_score P_domain P_relation P_irm_gibbs P_logp.
Local Open Scope R_scope.
Local Arguments Rprod : simpl never.

Notation universe := (list ((string * Z) * (list Z * list R))).

Section RelLogp.
Context {V : Type} (D : Dist V).
Implicit Types (rel : relation D).

(** The options the code computes for an entity. *)
Definition opt_of (W : world) (de : string * Z) : list (Z * R) :=
  match W !! de.1 with
  | Some dm => match entity_options dm de.2 with Ok o => options_list o | _ => [] end
  | None => []
  end.
Definition options_hold (W : world) (A : clustering) (u : universe) : Prop :=
  Forall (fun p => exists dm a, W !! p.1.1 = Some dm /\ A !! p.1.1 = Some a /\
    length p.2.2 = length p.2.1 /\ length p.2.1 <> 0%nat /\
    cluster_options (crp_alpha (dom_crp dm)) a p.1.2 (options_list p.2)) u.

Lemma position_options_spec W A : forall ds es, world_holds W A -> positive W -> (forall d, d ∈ ds -> d ∈ dom A) ->
  length es = length ds ->
  exists u : universe, position_options W ds es = Ok u.*2 /\ u.*1 = zip ds es /\ options_hold W A u /\
    universe_options u = opt_of W <$> zip ds es.
Proof.
  induction ds as [|d ds IH]; intros [|e es] Hw Hp Hd Hl; try done; [exists []; split_and!; [done|done|apply List.Forall_nil|done]|].
  assert (d ∈ dom A) as Hda by (apply Hd; left). apply elem_of_dom in Hda as [a Ha].
  pose proof (Hw d) as Hwd. rewrite Ha in Hwd. destruct (W !! d) as [dm|] eqn:Ed; [|done].
  destruct (entity_options_spec dm a e Hwd (Hp _ _ Ed)) as (o & Ho & Hlo & Hne & Hopt & _).
  destruct (IH es Hw Hp) as (u & Hu & Hu1 & Hu2 & Hu3); [intros d' ?; apply Hd; by right|simpl in Hl; lia|].
  exists (((d, e), o) :: u). cbn [position_options]. unfold deref. rewrite Ed. cbn [idx_ obind]. rewrite Ho. cbn [obind]. rewrite Hu.
  cbn [obind]. split_and!; [done|csimpl; by rewrite Hu1| |].
  - constructor; [|done]. exists dm, a. done.
  - unfold universe_options. csimpl. unfold universe_options in Hu3. rewrite Hu3. f_equal. unfold opt_of. cbn [fst snd]. by rewrite Ed, Ho.
Qed.

Lemma combination_block_spec (u : universe) tup : Forall (fun p => length p.2.2 = length p.2.1) u -> index_option tup u ->
  exists w, combination_block u.*2 tup.*1 = Ok (tup.*2.*1, w) /\ exp w = Rprod tup.*2.*2.
Proof.
  intros HF H. revert HF. induction H as [|[i [t p]] [de o] tup u Hx H IH]; intros HF; csimpl.
  - exists 0. split; [done|]. unfold Rprod; simpl. apply exp_0.
  - apply Forall_cons in HF as [Hl HF]. cbn [fst snd] in *. destruct (options_lookup o i t p Hl Hx) as (Ht & w & Hw & ->).
    rewrite Ht. cbn. rewrite Hw. cbn. destruct (IH HF) as (w' & -> & E). cbn. eexists. split; [done|]. by rewrite exp_plus, E.
Qed.

Lemma combination_step_spec rel (u : universe) v tup logps r : fresh_fixed rel ->
  length u = length (r_doms rel) ->
  Forall (fun p => length p.2.2 = length p.2.1) u -> index_option tup u ->
  match block_lik rel tup.*2.*1 v with
  | Some x => exists lp r', combination_step D rel u.*2 v (logps, r) tup.*1 = Ok (logps ++ [lp], r') /\ eexp lp = Rprod tup.*2.*2 * x
  | None => forall st, combination_step D rel u.*2 v (logps, r) tup.*1 <> Ok st
  end.
Proof.
  intros Hdet Hlu HF Hi. unfold block_lik, combination_step.
  rewrite bool_decide_eq_true_2. 2:{ rewrite fmap_length, <- Hlu. by eapply Forall2_length. }
  cbn [assert_ obind]. destruct (combination_block_spec u tup HF Hi) as (w & Hw & Ew). rewrite Hw. cbn [obind].
  unfold make_new_distribution. destruct (d_new D (r_spec rel) r) as [c r'] eqn:En. specialize (Hdet [] r). rewrite En in Hdet. cbn [fst] in Hdet.
  rewrite Hdet. destruct (d_logp D _ v) as [lp| | | | |]; try (intros ?; cbn; discriminate). cbn [obind].
  eexists _, _. split; [done|]. rewrite eexp_lw_add. simpl. rewrite Ew. lra.
Qed.

Lemma combinations_spec rel (u : universe) v : fresh_fixed rel -> length u = length (r_doms rel) ->
  Forall (fun p => length p.2.2 = length p.2.1) u ->
  forall tups logps r, Forall (fun tup => index_option tup u /\ is_Some (block_lik rel tup.*2.*1 v)) tups ->
  exists logps' r', foldM (combination_step D rel u.*2 v) (logps, r) (map (map fst) tups) = Ok (logps ++ logps', r') /\
    eexp <$> logps' = (fun tup : list (nat * (Z * R)) => Rprod (map snd tup).*2 * default 0 (block_lik rel (map snd tup).*1 v)) <$> tups.
Proof.
  intros Hdet Hlu HF tups. induction tups as [|tup tups IH]; intros logps r Ht.
  - exists [], r. rewrite app_nil_r. done.
  - apply Forall_cons in Ht as [[Hi [x Hx]] Ht]. cbn [map foldM].
    pose proof (combination_step_spec rel u v tup logps r Hdet Hlu HF Hi) as Hs. rewrite Hx in Hs.
    destruct Hs as (lp & r1 & Hs & E). change (map fst tup) with (tup.*1). rewrite Hs. cbn [obind].
    destruct (IH (logps ++ [lp]) r1 Ht) as (logps' & r' & Hf & E'). exists (lp :: logps'), r'. split; [by rewrite Hf, <- app_assoc|].
    csimpl. rewrite E'. f_equal. change (map snd tup) with (tup.*2). by rewrite Hx.
Qed.

Lemma combinations_inv rel (u : universe) v : fresh_fixed rel -> length u = length (r_doms rel) ->
  Forall (fun p => length p.2.2 = length p.2.1) u ->
  forall tups logps r st, Forall (fun tup => index_option tup u) tups ->
  foldM (combination_step D rel u.*2 v) (logps, r) (map (map fst) tups) = Ok st ->
  Forall (fun tup => is_Some (block_lik rel tup.*2.*1 v)) tups.
Proof.
  intros Hdet Hlu HF tups. induction tups as [|tup tups IH]; intros logps r st Ht H; [constructor|].
  apply Forall_cons in Ht as [Hi Ht]. cbn [map foldM] in H. apply obind_Ok in H as ([logps1 r1] & H1 & H2).
  constructor; [|by eapply IH]. pose proof (combination_step_spec rel u v tup logps r Hdet Hlu HF Hi) as Hs.
  destruct (block_lik _ _ _); [by eexists|]. by destruct (Hs _ H1).
Qed.

(** The probability is the mixture over independent choices for the positions. *)
Lemma rel_logp_spec W A rel items v : world_holds W A -> positive W -> (forall d, d ∈ r_doms rel -> d ∈ dom A) ->
  r_doms rel <> [] -> fresh_fixed rel -> length items = length (r_doms rel) ->
  exists opts,
    Forall2 (fun de l => exists dm a, W !! de.1 = Some dm /\ A !! de.1 = Some a /\
      cluster_options (crp_alpha (dom_crp dm)) a de.2 l) (zip (r_doms rel) items) opts /\ opts = opt_of W <$> zip (r_doms rel) items /\ forall r,
    ((exists st, rel_logp D W rel items v r = Ok st) <->
       Forall (fun ch : list (Z * R) => is_Some (block_lik rel ch.*1 v)) (cartesian opts)) /\
    (forall lp r', rel_logp D W rel items v r = Ok (lp, r') ->
      eexp lp = Rsum ((fun ch : list (Z * R) => Rprod ch.*2 * default 0 (block_lik rel ch.*1 v)) <$> cartesian opts)).
Proof.
  intros Hw Hp Hd Hne Hdet Hl.
  destruct (position_options_spec W A (r_doms rel) items Hw Hp Hd Hl) as (u & Hu & Hu1 & HF & Hu3).
  assert (length u = length (r_doms rel)) as Hlu.
  { rewrite <- (fmap_length fst u), Hu1, zip_with_length. lia. }
  assert (Forall (fun p : (string * Z) * (list Z * list R) => length p.2.2 = length p.2.1) u) as HF2.
  { eapply Forall_impl; [exact HF|]. by intros p (? & ? & ? & ? & ? & _). }
  assert (u <> []) as Hu0. { intros ->. by destruct (r_doms rel). }
  destruct (irm_logp_tups u HF2) as (tups & Et1 & Et2 & Hti).
  exists (universe_options u). split_and!; [|done|].
  { rewrite <- Hu1. unfold universe_options. apply Forall2_fmap, Forall_Forall2_diag. eapply Forall_impl; [exact HF|].
    intros p (dm & a & ? & ? & _ & _ & ?). eauto. }
  intros r. unfold rel_logp. rewrite bool_decide_eq_true_2 by done. cbn [assert_ obind]. rewrite Hu. cbn [obind].
  assert ((fun o : list Z * list R => seq 0 (length o.1)) <$> u.*2 = map (fun p : (string * Z) * (list Z * list R) => seq 0 (length p.2.1)) u) as ->.
  { by rewrite <- list_fmap_compose. }
  rewrite product_Ok by by destruct u. cbn [obind]. rewrite Et1, Et2.
  assert (tups <> []) as Ht0.
  { intros ->. assert (length (cartesian (universe_options u)) <> 0%nat) as Hlc; [|by rewrite Et2 in Hlc].
    rewrite length_cartesian. unfold universe_options. clear -HF HF2. induction HF as [|p u' Hp _ IH]; [done|].
    apply Forall_cons in HF2 as [HH HF2]. csimpl. destruct Hp as (? & ? & _ & _ & _ & Hn & _).
    assert (length (options_list p.2) = length p.2.1) as ->. { unfold options_list. rewrite zip_with_length, fmap_length. cbn [fst snd] in HH. lia. }
    specialize (IH HF2). intros Hz. apply Nat.eq_mul_0 in Hz as [Hz|Hz]; [by apply Hn|by apply IH]. }
  split; [split|].
  - intros (st & H). apply obind_Ok in H as ([logps r1] & H & _).
    apply (combinations_inv rel u v Hdet Hlu HF2 tups [] r _ Hti) in H. apply Forall_forall. intros ch Hch.
    apply elem_of_list_fmap in Hch as (tup & -> & Htup). by apply (proj1 (Forall_forall _ _) H).
  - intros HFc. destruct (combinations_spec rel u v Hdet Hlu HF2 tups [] r) as (logps & r1 & Hc & E).
    { apply Forall_forall. intros tup Htup. split; [by apply (proj1 (Forall_forall _ _) Hti)|].
      apply (proj1 (Forall_forall _ _) HFc (map snd tup)). apply elem_of_list_fmap. eauto. }
    rewrite Hc. cbn [obind app]. destruct (logsumexp_spec logps) as (lp & -> & _); [|cbn; eauto]. intros ->. by destruct tups.
  - intros lp r' H. apply obind_Ok in H as ([logps r1] & H & H2).
    pose proof (combinations_inv rel u v Hdet Hlu HF2 tups [] r _ Hti H) as HFc.
    destruct (combinations_spec rel u v Hdet Hlu HF2 tups [] r) as (logps' & r2 & Hc & E).
    { apply Forall_forall. intros tup Htup. split; [by apply (proj1 (Forall_forall _ _) Hti)|].
      by apply (proj1 (Forall_forall _ _) HFc). }
    rewrite H in Hc. injection Hc as -> <-. cbn [app] in *.
    destruct (logsumexp_spec logps') as (lp' & Hlp & Elp). { intros ->. by destruct tups. }
    apply obind_Ok in H2 as (lp2 & H2 & [= <- <-]). rewrite Hlp in H2. injection H2 as <-.
    rewrite Elp. f_equal. change (fmap ?f (map ?g tups)) with (map f (map g tups)). rewrite map_map. exact E.
Qed.
End RelLogp.
