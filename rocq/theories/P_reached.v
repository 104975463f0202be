(** Every law can be restricted to objects that creation and later calls produce. *)
From stdpp Require Import list.
From Coq Require Import ZArith Reals.
From Verif Require Import M_base M_dist S_dist S_relation S_irm.

Section Reached.
Context {V : Type} {D : Dist V} (L : lawful D).

Lemma history_fill h l : dist_history D (law_of L h []) [] -> Forall (law_adm L) l -> dist_history D (law_of L h l) l.
Proof.
  intros H0. induction 1 as [|v l Hv Hl IH]; [done|]. apply (hist_inc D _ _ _ _ IH). by apply (law_inc D L).
Qed.
Lemma history_drain h l : dist_history D (law_of L h l) l -> Forall (law_adm L) l -> dist_history D (law_of L h []) [].
Proof.
  induction l as [|v l IH]; intros H Hl; [done|]. apply IH; [|by inversion Hl].
  apply (hist_uninc D _ _ v l _ H); [done|]. by apply (law_uninc D L).
Qed.

Definition reached_law0 : lawful D.
Proof.
  refine {| law_hyp := sig (fun h => dist_history D (law_of L h nil) nil); law_of := fun h l => law_of L (`h) l; law_adm := law_adm L |}.
  - intros h. apply (law_perm D L).
  - intros h. apply (law_inc D L).
  - intros h. apply (law_uninc D L).
  - intros h. apply (law_N_zero D L).
  - intros h. apply (law_N_pos D L).
  - intros sp r. destruct (law_new D L sp r) as [h Hh].
    assert (dist_history D (law_of L h []) []) as Hr by (rewrite <- Hh; constructor). by exists (exist _ h Hr).
  - intros [h Hh] l r s r' Hl E. cbn [proj1_sig] in *. destruct (law_resample D L _ _ _ _ _ Hl E) as [h' ->].
    assert (dist_history D (law_of L h' []) []) as Hr.
    { eapply history_drain; [|done]. eapply hist_resample; [|exact E]. by apply history_fill. }
    by exists (exist _ h' Hr).
  - intros h. apply (law_score_empty D L).
Defined.
Definition reached_law : rlawful D.
Proof. refine {| rl_law := reached_law0 |}. intros [h Hh]. exact Hh. Defined.
End Reached.
