(** A function satisfying the two log-gamma facts, so that theorems with the
    hypothesis [is_lgamma lg] are not vacuous. *)
From stdpp Require Import list.
From Coq Require Import ZArith Reals Lra Lia.
From Verif Require Import S_crp.
Local Open Scope R_scope.

Fixpoint sum_ln (f : R) (n : nat) : R :=
  match n with O => 0 | S k => sum_ln f k + ln (f + INR k) end.
Definition some_lgamma (x : R) : R :=
  let m := (- up (- x))%Z in sum_ln (x - IZR m) (Z.to_nat m).

Lemma up_neg_spec x : IZR (- up (- x)) < x <= IZR (- up (- x)) + 1.
Proof. destruct (archimed (- x)). rewrite opp_IZR. lra. Qed.

Lemma up_neg_unique x m : IZR m < x -> x <= IZR m + 1 -> (- up (- x))%Z = m.
Proof.
  intros H1 H2. assert (up (- x) = - m)%Z as ->; [|lia].
  symmetry. apply tech_up; rewrite opp_IZR; lra.
Qed.

Lemma some_lgamma_ok : is_lgamma some_lgamma.
Proof.
  split.
  - unfold some_lgamma. rewrite (up_neg_unique 1 0); simpl; lra.
  - intros x Hx. unfold some_lgamma.
    destruct (up_neg_spec x) as [H1 H2]. set (m := (- up (- x))%Z) in *.
    rewrite (up_neg_unique (x + 1) (m + 1)) by (rewrite plus_IZR; lra).
    assert (-1 < m)%Z as Hm.
    { apply lt_IZR. lra. }
    replace (Z.to_nat (m + 1)) with (S (Z.to_nat m)) by lia.
    rewrite plus_IZR. simpl.
    replace (x + 1 - (IZR m + 1)) with (x - IZR m) by lra.
    rewrite INR_IZR_INZ, Z2Nat.id by lia. f_equal. f_equal. lra.
Qed.
