(** The probability of observations does not depend on the order they are listed in. *)
From Coq Require Import String Ascii.
From stdpp Require Import gmap strings sorting list.
From Coq Require Import ZArith Reals Lra Lia.
From Verif Require Import M_base M_math M_crp M_domain M_dist M_relation M_noisy M_irm M_logp M_hirm M_rel_logp
  S_math S_crp S_crp_state S_relation S_irm S_logp S_hirm S_hirm_logp S_rel_logp P_base P_math P_sum P_crp P_crp_score P_domain P_relation P_any P_irm P_irm_gibbs P_logp P_hirm P_rel_logp P_rel_agree T_logp T_hirm_logp.
Local Open Scope R_scope.
Local Arguments Rprod : simpl never.

Section Order.
Context {V : Type}.
Implicit Types (ir : irm V) (h : hirm V).
Notation observation := (string * items_t * V)%type.

Lemma add_observations_opts ir (obs : list observation) : forall seen (u : universe) seen' u', foldM (add_observation ir) (seen, u) obs = Ok (seen', u') ->
  universe_options u = opt_of (i_domains ir) <$> u.*1 -> universe_options u' = opt_of (i_domains ir) <$> u'.*1.
Proof.
  induction obs as [|[[name items] v] obs IH]; intros seen u seen' u' H Hu; cbn [foldM] in H; [by injection H as <- <-|].
  apply obind_Ok in H as ([s1 u1] & H1 & H). eapply IH; [exact H|]. unfold add_observation in H1.
  apply obind_Ok in H1 as (x1 & _ & H1). apply obind_Ok in H1 as (a & _ & H1). apply obind_Ok in H1 as (x2 & _ & H1).
  apply obind_Ok in H1 as (u2 & H1 & [= _ <-]). by eapply add_entities_opts.
Qed.

(** The choices for the same entities in another order. *)
Lemma choices_perm (opt : string * Z -> list (Z * R)) (ents ents' : list (string * Z)) (ch : list (Z * R)) :
  ents ≡ₚ ents' -> NoDup ents -> ch ∈ cartesian (opt <$> ents) -> exists ch', ch' ∈ cartesian (opt <$> ents') /\
    (list_to_map (zip ents' ch'.*1) : gmap (string * Z) Z) = list_to_map (zip ents ch.*1).
Proof.
  intros Hp Hnd Hc. apply elem_of_cartesian in Hc. apply (proj1 (Forall2_fmap_r _ _ _ _)) in Hc.
  pose proof (Forall2_length _ _ _ Hc) as Hlen.
  assert ((zip ents ch).*1 ≡ₚ ents') as HP by (rewrite fst_zip by lia; exact Hp). symmetry in HP.
  destruct (Permutation_map_inv _ _ HP) as (zs & -> & Hzs).
  assert (Forall (fun z => z.2 ∈ opt z.1) zs) as HF.
  { rewrite <- Hzs. clear -Hc. induction Hc; cbn; [constructor|]. constructor; [done|exact IHHc]. }
  exists zs.*2. split.
  - apply elem_of_cartesian. clear -HF. induction HF; cbn; constructor; done.
  - assert (forall (l : list ((string * Z) * (Z * R))), zip (map fst l) (l.*2).*1 = (fun z => (z.1, z.2.1)) <$> l) as E.
    { intros l. induction l as [|[? [? ?]] l IHl]; [done|]. cbn in *. by rewrite IHl. }
    rewrite E. assert (zip ents ch.*1 = (fun z : (string * Z) * (Z * R) => (z.1, z.2.1)) <$> zip ents ch) as ->.
    { clear -Hlen. revert ch Hlen. induction ents as [|e ents IH]; intros [|[? ?] ch] Hl; try done. cbn in *. f_equal. apply IH. lia. }
    symmetry. apply list_to_map_proper; [|by rewrite Hzs].
    rewrite <- list_fmap_compose. change (NoDup ((zip ents ch).*1)). by rewrite fst_zip by lia.
Qed.

Lemma irm_logp_perm ar ir A (obs obs' : list observation) r x r1 : irm_holds ar ir A -> positive (i_domains ir) -> all_fresh_determined ir ->
  (exists ob d e, ob ∈ obs /\ observation_mentions ir ob d e) -> obs ≡ₚ obs' ->
  irm_logp ir obs r = Ok (x, r1) -> forall r2, exists y r3, irm_logp ir obs' r2 = Ok (y, r3) /\ eexp y = eexp x.
Proof.
  intros Hh Hp Hdet Hm HP H r2. destruct (irm_logp_inv ir obs r _ H) as [Hsh Hnd].
  assert (Forall (observation_shape ir) obs') as Hsh' by by rewrite <- HP.
  assert (NoDup obs'.*1) as Hnd' by by rewrite <- HP.
  assert (exists ob d e, ob ∈ obs' /\ observation_mentions ir ob d e) as Hm'.
  { destruct Hm as (ob & d & e & Ho & Hob). exists ob, d, e. by rewrite <- HP. }
  destruct (irm_logp_collected ar ir A obs Hh Hp Hdet Hsh Hnd Hm) as (seen & u & Hu & N1 & I1 & _ & S1).
  destruct (irm_logp_collected ar ir A obs' Hh Hp Hdet Hsh' Hnd' Hm') as (seen' & u' & Hu' & N2 & I2 & _ & S2).
  pose proof (add_observations_opts ir obs _ _ _ _ Hu eq_refl) as O1. pose proof (add_observations_opts ir obs' _ _ _ _ Hu' eq_refl) as O2.
  cbv zeta in *. rewrite O1 in S1. rewrite O2 in S2.
  assert (u.*1 ≡ₚ u'.*1) as HU.
  { apply NoDup_Permutation; [done|done|]. intros [d e]. rewrite I1, I2. split; intros (ob & Ho & Hob); exists ob; (split; [by rewrite ?HP, <- ?HP in *|done]). }
  destruct (S1 r) as [K1 V1], (S2 r2) as [K2 V2].
  assert (exists st, irm_logp ir obs' r2 = Ok st) as [[y r3] Hy].
  { apply K2. assert (exists st, irm_logp ir obs r = Ok st) as K1'%K1 by by eexists. apply Forall_forall. intros ch Hch.
    destruct (choices_perm _ _ _ ch (symmetry HU) N2 Hch) as (ch' & Hch' & E). pose proof (proj1 (Forall_forall _ _) K1' ch' Hch') as HF.
    rewrite <- HP. eapply Forall_impl; [exact HF|]. intros ob Hob. cbv beta in Hob. unfold picked in *. by rewrite <- E. }
  exists y, r3. split; [done|]. rewrite (V1 _ _ H), (V2 _ _ Hy).
  transitivity (shared (opt_of (i_domains ir)) u'.*1 (fun m => joint_lik ir (fun d e => m !! (d, e)) obs')); [reflexivity|].
  transitivity (shared (opt_of (i_domains ir)) u.*1 (fun m => joint_lik ir (fun d e => m !! (d, e)) obs)); [|reflexivity].
  rewrite (shared_perm _ _ _ _ (symmetry HU) N2). apply shared_ext. intros m _. unfold joint_lik. apply Rprod_perm. by rewrite HP.
Qed.

Lemma hirm_logp_perm h a o o' (obs obs' : list observation) r x r1 r2 : hirm_holds h a -> hirm_scorable h -> orders_ok o -> orders_ok o' -> obs ≡ₚ obs' ->
  hirm_logp o h obs r = Ok (x, r1) -> exists y r3, hirm_logp o' h obs' r2 = Ok (y, r3) /\ eexp y = eexp x.
Proof.
  intros Hh Hsc Ho Ho' HP H. destruct (hirm_logp_factors h a o obs r x r1 Hh Hsc Ho H) as (m & Hm & Ex & HF).
  destruct (groups_spec h obs ∅ m Hm) as [G1 G2].
  destruct (groups_ok h obs') with (m0 := (∅ : gmap Z (list observation))) as [m' Hm']; [by rewrite <- HP|].
  destruct (groups_spec h obs' ∅ m' Hm') as [G1' G2'].
  assert (dom m = dom m') as Ed.
  { apply set_eq. intros t. rewrite !elem_of_dom, (proj2 (G2 t)), (proj2 (G2' t)), !lookup_empty.
    split; intros [[? ?]|(ob & Hob & Hc)]; try done; right; exists ob; (split; [by rewrite ?HP, <- ?HP in *|done]). }
  assert (forall t, default [] (m !! t) ≡ₚ default [] (m' !! t)) as Eg.
  { intros t. rewrite (proj1 (G2 t)), (proj1 (G2' t)), !lookup_empty. cbn [default app]. by rewrite HP. }
  assert (Forall (fun t => (exists ir, h_irms h !! t = Some ir /\ forall r2, exists y r3, irm_logp ir (default [] (m' !! t)) r2 = Ok (y, r3) /\ eexp y = factor h m' t) /\
    factor h m' t = factor h m t) (elements (dom m))) as HF'.
  { apply Forall_forall. intros t Ht. destruct (proj1 (Forall_forall _ _) HF t Ht) as (ir & Hir & Hy).
    pose proof (hh_irms _ _ Hh t) as Hi. rewrite Hir in Hi. destruct Hi as (_ & [A HA] & _). destruct (Hsc _ _ Hir) as [S1 S2].
    destruct (Hy []) as (y & r3 & Hyr & Ey).
    assert (is_Some (m !! t)) as Hmt by by apply elem_of_dom, elem_of_elements.
    assert (exists ob d e, ob ∈ default [] (m !! t) /\ observation_mentions ir ob d e) as Hme.
    { destruct (G2 t) as [E1 E2]. rewrite lookup_empty in E1, E2. cbn [default app] in E1. rewrite E1. eapply cluster_mentions; [done|done| |].
      - rewrite <- E1. exact (proj1 (irm_logp_inv _ _ _ _ Hyr)).
      - apply E2 in Hmt as [[? ?]|?]; done. }
    pose proof (irm_logp_perm _ ir A _ _ _ _ _ HA S1 S2 Hme (Eg t) Hyr) as Hall.
    assert (factor h m' t = factor h m t) as Ef.
    { destruct (Hall []) as (y' & r4 & Hy' & Ey'). unfold factor at 1. rewrite Hir, Hy'. congruence. }
    split; [|done]. exists ir. split; [done|]. intros r5. destruct (Hall r5) as (y' & r4 & Hy' & Ey'). exists y', r4. split; [done|]. congruence. }
  assert (o_ents o' (dom m') ≡ₚ elements (dom m)) as HE by (rewrite Ed; apply Ho').
  assert (Forall (fun t => exists ir, h_irms h !! t = Some ir /\ forall r2, exists y r3, irm_logp ir (default [] (m' !! t)) r2 = Ok (y, r3) /\ eexp y = factor h m' t) (o_ents o' (dom m'))) as HG.
  { rewrite HE. eapply Forall_impl; [exact HF'|]. by intros t [? _]. }
  destruct (parts_run h m' _ HG (Some 0) r2) as (y & r3 & Hy & Ey). exists y, r3. split.
  - unfold hirm_logp. rewrite Hm'. exact Hy.
  - rewrite Ey, Ex. cbn [eexp]. rewrite exp_0, Rmult_1_l. etrans; [apply Rprod_perm; by rewrite HE|]. f_equal.
    apply list_fmap_ext. intros i t Hi. by destruct (proj1 (Forall_lookup _ _) HF' i t Hi).
Qed.
End Order.
