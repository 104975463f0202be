(** A minimal lawful distribution whose operations compute, used only to run
    concrete examples of the relation theorems. *)
From stdpp Require Import gmap strings list.
From Coq Require Import ZArith Reals Lia.
From Verif Require Import M_base M_dist M_relation S_relation S_dist P_base P_dist.
From Verif Require M_noisy.

Definition tally_dist : Dist bool := {|
  d_spec := unit;
  d_state := nat * nat;
  d_new := fun _ r => ((0, 0), r);
  d_N_zero := fun s => bool_decide (s.1 + s.2 = 0);
  d_N_pos := fun s => bool_decide (0 < s.1 + s.2);
  d_inc := fun s x => Ok (if x : bool then (S s.1, s.2) else (s.1, S s.2));
  d_uninc := fun s x => Ok (if x : bool then (pred s.1, s.2) else (s.1, pred s.2));
  d_logp := fun _ _ => Ok (Some 0%R);
  d_score := fun _ => 0%R;
  d_sample := fun s r => Ok (true, s, r);
  d_resample := fun s r => Ok (s, r);
  d_nearest := fun _ x => Ok x;
|}.
Definition tally_of (l : list bool) : nat * nat := (occurrences true l, occurrences false l).
Lemma tally_length l : occurrences true l + occurrences false l = length l.
Proof. induction l as [|[] l IH]; [done|rewrite !occurrences_cons; simpl; lia..]. Qed.
Definition tally_lawful : lawful tally_dist.
Proof.
  refine {| law_hyp := unit; law_of := (fun _ => tally_of) : unit -> _ -> d_state tally_dist; law_adm := fun _ => True |}.
  - intros _ l l' Hp. unfold tally_of. by rewrite !(occurrences_perm _ _ _ Hp).
  - intros _ l v s' _. simpl. unfold tally_of. rewrite !occurrences_cons. destruct v; simpl; naive_solver.
  - intros _ l v _. simpl. unfold tally_of. rewrite !occurrences_cons. by destruct v.
  - intros _ l. simpl. by rewrite tally_length.
  - intros _ l. simpl. rewrite tally_length. apply bool_decide_ext. lia.
  - intros. by exists tt.
  - intros _ l r s r' _ [= <- <-]. by exists tt.
  - done.
Defined.

(** A lawful distribution over any type of values that only counts them, and an
    emission made from it that copies values. *)
Definition count_dist (V : Type) : Dist V := {|
  d_spec := unit;
  d_state := nat;
  d_new := fun _ r => (0, r);
  d_N_zero := fun s => bool_decide (s = 0);
  d_N_pos := fun s => bool_decide (0 < s);
  d_inc := fun s _ => Ok (S s);
  d_uninc := fun s _ => Ok (pred s);
  d_logp := fun _ _ => Ok (Some 0%R);
  d_score := fun _ => 0%R;
  d_sample := fun s r => UB;
  d_resample := fun s r => Ok (s, r);
  d_nearest := fun _ x => Ok x;
|}.
Definition count_lawful V : lawful (count_dist V).
Proof.
  refine {| law_hyp := unit; law_of := (fun _ l => length l) : unit -> list V -> d_state (count_dist V); law_adm := fun _ => True |}.
  - intros _ l l' Hp. by rewrite Hp.
  - intros _ l v s' _. simpl. naive_solver.
  - done.
  - done.
  - intros _ l. simpl. apply bool_decide_ext. lia.
  - intros. by exists tt.
  - intros _ l r s r' _ [= <- <-]. by exists tt.
  - done.
Defined.
Definition copy_emission (V : Type) : M_noisy.Emis V := {|
  M_noisy.em_dist := count_dist (V * V);
  M_noisy.em_corrupt := fun _ v r => Ok (v, r);
  M_noisy.em_propose := fun _ l r => match l with [] => UB | v :: _ => Ok (v, r) end;
|}.
