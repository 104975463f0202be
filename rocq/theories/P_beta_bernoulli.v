(** BetaBernoulli is lawful; its predictive. *)
From stdpp Require Import list strings gmap.
From Coq Require Import ZArith Reals Lra Lia.
From Verif Require Import M_base M_math M_dist M_distributions S_math S_crp S_dist S_relation
  P_base P_math P_dist.
Local Open Scope R_scope.

Definition pos2 := {p : R * R | 0 < p.1 /\ 0 < p.2}.
Definition bb_of (h : pos2) (l : list bool) : bb :=
  BB (`h).1 (`h).2 (INR (length l)) (Z.of_nat (occurrences true l)).

Lemma bb_inc_of h l x : bb_incorporate (bb_of h l) x 1 = bb_of h (x :: l).
Proof.
  unfold bb_incorporate, bb_of. cbn [bb_alpha bb_beta bb_N bb_s].
  rewrite occurrences_cons. f_equal.
  - simpl length. rewrite S_INR. done.
  - rewrite <- (to_int_IZR (Z.of_nat (_ + _))). f_equal. rewrite Nat2Z.inj_add, plus_IZR. unfold b2r. set (q := IZR (Z.of_nat (occurrences true l))).
    destruct x; [rewrite decide_True by done|rewrite decide_False by done];
      [change (Z.of_nat 1) with 1%Z|change (Z.of_nat 0) with 0%Z]; lra.
Qed.
Lemma bb_uninc_of h l x : bb_unincorporate (bb_of h (x :: l)) x = bb_of h l.
Proof.
  unfold bb_unincorporate, bb_incorporate, bb_of. cbn [bb_alpha bb_beta bb_N bb_s].
  rewrite occurrences_cons. f_equal.
  - change (length (x :: l)) with (S (length l)). rewrite S_INR. lra.
  - rewrite <- (to_int_IZR (Z.of_nat (occurrences true l))). f_equal. rewrite Nat2Z.inj_add, plus_IZR. unfold b2r. set (q := IZR (Z.of_nat (occurrences true l))).
    destruct x; [rewrite decide_True by done|rewrite decide_False by done];
      [change (Z.of_nat 1) with 1%Z|change (Z.of_nat 0) with 0%Z]; lra.
Qed.

Lemma bb_grid_pos g : bb_grid = Ok g -> forall h, h ∈ g -> 0 < h.1 /\ 0 < h.2.
Proof.
  intros E [a b] Hin. unfold bb_grid in E.
  apply obind_Ok in E as (ag & E1 & E). apply obind_Ok in E as (bg & E2 & [= <-]).
  apply elem_of_list_bind in Hin as (a' & Hin & Ha').
  apply elem_of_list_fmap in Hin as (b' & [= -> ->] & Hb').
  assert (forall v x, log_linspace (1 / 10000) 10000 10 true = Ok v -> x ∈ v -> 0 < x) as Hpos.
  { intros v x Hv Hx. unfold log_linspace in Hv. apply obind_Ok in Hv as (w & _ & [= <-]).
    apply elem_of_list_fmap in Hx as (y & -> & _). apply exp_pos. }
  split; simpl; eauto.
Qed.
Lemma bb_grid_Ok : exists g, bb_grid = Ok g /\ length g = 100%nat.
Proof.
  unfold bb_grid. unfold log_linspace, linspace. simpl. eexists. split; [reflexivity|]. done.
Qed.

Lemma bb_score_empty lg h : bb_score lg (bb_of h []) = 0.
Proof.
  unfold bb_score, bb_of. cbn [bb_alpha bb_beta bb_N bb_s].
  change (IZR (Z.of_nat (occurrences true []))) with 0. change (INR (length [])) with 0.
  rewrite Rplus_0_l. replace (0 - 0 + (`h).2) with (`h).2 by lra. lra.
Qed.
Definition bb_lawful lg : lawful (bb_dist lg).
Proof.
  refine {| law_hyp := pos2; law_of := (bb_of : pos2 -> _ -> d_state (bb_dist lg)); law_adm := fun _ => True |}.
  - intros h l l' Hp. unfold bb_of. by rewrite (occurrences_perm true _ _ Hp), Hp.
  - intros h l v s' _. cbn [d_inc bb_dist]. rewrite bb_inc_of. naive_solver.
  - intros h l v _. cbn [d_uninc bb_dist]. by rewrite bb_uninc_of.
  - intros h l. apply R_is_zero_INR.
  - intros h l. apply R_is_pos_INR.
  - intros sp r. simpl. assert (0 < 1 /\ 0 < 1) as H by lra. by exists (exist _ (1, 1) H).
  - intros h l r s r' Hadm E. cbn [d_resample bb_dist] in E. unfold bb_transition in E.
    apply obind_Ok in E as (g & Hg & E). apply obind_Ok in E as ([h1 r1] & E & [= <- <-]).
    apply grid_transition_Ok in E. exists (exist _ h1 (bb_grid_pos g Hg h1 E)). done.
  - intros h. apply bb_score_empty.
Defined.

Lemma bb_of_pos h l : 0 < IZR (bb_s (bb_of h l)) + bb_alpha (bb_of h l) /\
  0 < bb_N (bb_of h l) - IZR (bb_s (bb_of h l)) + bb_beta (bb_of h l).
Proof.
  destruct h as [[a b] [Ha Hb]]. simpl in *. rewrite <- INR_IZR_INZ.
  pose proof (pos_INR (occurrences true l)). pose proof (le_INR _ _ (occurrences_le true l)). lra.
Qed.

Lemma bb_predictive h l : exp (bb_logp (bb_of h l) true) + exp (bb_logp (bb_of h l) false) = 1.
Proof.
  destruct (bb_of_pos h l) as [H1 H2]. unfold bb_logp.
  unfold Rminus. rewrite !exp_plus, !exp_Ropp, !exp_ln by lra. field. lra.
Qed.

Lemma bb_chain lg h l x : is_lgamma lg ->
  bb_score lg (bb_of h (x :: l)) - bb_score lg (bb_of h l) = bb_logp (bb_of h l) x.
Proof.
  intros [_ Hlg]. rewrite <- bb_inc_of.
  destruct (bb_of_pos h l) as [H1 H2].
  unfold bb_score, bb_logp, lbeta, bb_incorporate. cbn [bb_alpha bb_beta bb_N bb_s].
  set (b := bb_of h l) in *.
  set (S_ := IZR (bb_s b) + bb_alpha b) in *. set (F := bb_N b - IZR (bb_s b) + bb_beta b) in *.
  assert (IZR (to_int (IZR (bb_s b) + 1 * b2r x)) = IZR (bb_s b) + b2r x) as ->.
  { replace (IZR (bb_s b) + 1 * b2r x) with (IZR (bb_s b + if x then 1 else 0))
      by (rewrite plus_IZR; destruct x; simpl; lra).
    rewrite to_int_IZR, plus_IZR. by destruct x. }
  replace (bb_N b + bb_alpha b + bb_beta b) with (S_ + F) by (unfold S_, F; lra).
  destruct x; simpl b2r.
  - replace (IZR (bb_s b) + 1 + bb_alpha b) with (S_ + 1) by (unfold S_; lra).
    replace (bb_N b + 1 - (IZR (bb_s b) + 1) + bb_beta b) with F by (unfold F; lra).
    replace (S_ + 1 + F) with (S_ + F + 1) by lra.
    rewrite !Hlg by lra. lra.
  - replace (IZR (bb_s b) + 0 + bb_alpha b) with S_ by (unfold S_; lra).
    replace (bb_N b + 1 - (IZR (bb_s b) + 0) + bb_beta b) with (F + 1) by (unfold F; lra).
    replace (S_ + (F + 1)) with (S_ + F + 1) by lra.
    rewrite !Hlg by lra. lra.
Qed.

