(** Facts about the stream helpers of M_text.v. *)
From Coq Require Import String Ascii.
From stdpp Require Import base list strings sets.
From Coq Require Import Lia.
From Verif Require Import M_base M_text S_parse P_parse.
Local Open Scope nat_scope.

Lemma getlines_from_app d acc a l : d ∉ a ->
  getlines_from d acc (a ++ d :: l) = (rev acc ++ a) :: getlines_from d [] l.
Proof.
  revert acc. induction a as [|c a IH]; intros acc Hn; simpl.
  - rewrite ceqb_refl. by rewrite app_nil_r.
  - apply not_elem_of_cons in Hn as [Hc Hn]. rewrite (proj2 (ceqb_false c d)) by congruence.
    rewrite IH by done. simpl. by rewrite <- app_assoc.
Qed.
Lemma getlines_app d a l : d ∉ a -> getlines d (a ++ d :: l) = a :: getlines d l.
Proof. intros H. unfold getlines. by rewrite getlines_from_app. Qed.
Lemma getlines_from_last d acc a : d ∉ a -> getlines_from d acc a = match rev acc ++ a with [] => [] | l => [l] end.
Proof.
  revert acc. induction a as [|c a IH]; intros acc Hn; simpl.
  - rewrite app_nil_r. destruct acc as [|x acc]; [done|]. simpl. by destruct (rev acc).
  - apply not_elem_of_cons in Hn as [Hc Hn]. rewrite (proj2 (ceqb_false c d)) by congruence.
    rewrite IH by done. simpl. by rewrite <- app_assoc.
Qed.
Lemma getlines_one d a : d ∉ a -> a <> [] -> getlines d a = [a].
Proof. intros H Hne. unfold getlines. rewrite getlines_from_last by done. simpl. by destruct a. Qed.
Lemma getlines_nil d : getlines d [] = [].
Proof. reflexivity. Qed.
(** Every part returned is free of the delimiter. *)
Lemma getlines_from_no_delim d acc l : d ∉ acc -> Forall (fun p => d ∉ p) (getlines_from d acc l).
Proof.
  revert acc. induction l as [|c l IH]; intros acc Hacc; simpl.
  - destruct acc as [|x acc]; constructor; [|constructor]. rewrite <- elem_of_reverse in Hacc.
    by rewrite <- rev_alt in Hacc || (unfold reverse in Hacc; rewrite <- rev_alt in Hacc).
  - destruct (ceqb c d) eqn:E.
    + constructor; [|apply IH; apply not_elem_of_nil]. intros H. apply Hacc. apply elem_of_list_In in H. apply in_rev in H. by apply elem_of_list_In.
    + apply ceqb_false in E. apply IH. rewrite not_elem_of_cons. split; [congruence|done].
Qed.
Lemma getlines_no_delim d l : Forall (fun p => d ∉ p) (getlines d l).
Proof. apply getlines_from_no_delim, not_elem_of_nil. Qed.
(** No character is invented. *)
Lemma getlines_from_sub d acc l p c : p ∈ getlines_from d acc l -> c ∈ p -> c ∈ acc \/ c ∈ l.
Proof.
  revert acc. induction l as [|x l IH]; intros acc; simpl.
  - destruct acc as [|y acc]; [by intros ?%elem_of_nil|]. intros ->%elem_of_list_singleton Hc. left.
    apply elem_of_list_In. apply in_rev. by apply elem_of_list_In.
  - destruct (ceqb x d) eqn:E.
    + intros [->|Hp]%elem_of_cons Hc.
      * left. apply elem_of_list_In. apply in_rev. by apply elem_of_list_In.
      * destruct (IH [] Hp Hc) as [H|H]; [by apply elem_of_nil in H|]. right. by apply elem_of_list_further.
    + intros Hp Hc. destruct (IH (x :: acc) Hp Hc) as [[->|H]%elem_of_cons|H]; [right; apply elem_of_list_here|by left|right; by apply elem_of_list_further].
Qed.
Lemma getlines_sub d l p c : p ∈ getlines d l -> c ∈ p -> c ∈ l.
Proof. intros Hp Hc. destruct (getlines_from_sub d [] l p c Hp Hc) as [H|H]; [by apply elem_of_nil in H|done]. Qed.

(** Words *)
Lemma words_from_word acc a l : Forall (fun c => isspace c = false) a ->
  words_from acc (a ++ l) = words_from (rev a ++ acc) l.
Proof.
  revert acc. induction a as [|c a IH]; intros acc Ha; simpl; [done|].
  apply Forall_cons in Ha as [Hc Ha]. rewrite Hc, IH by done. by rewrite <- app_assoc.
Qed.
Lemma words_from_end acc c l : isspace c = true -> acc <> [] -> words_from acc (c :: l) = rev acc :: words l.
Proof. intros Hc Hne. simpl. rewrite Hc. by destruct acc. Qed.
Lemma words_space c l : isspace c = true -> words (c :: l) = words l.
Proof. intros Hc. unfold words. simpl. by rewrite Hc. Qed.
Lemma words_cons a c l : Forall (fun c => isspace c = false) a -> a <> [] -> isspace c = true ->
  words (a ++ c :: l) = a :: words l.
Proof.
  intros Ha Hne Hc. unfold words at 1. rewrite words_from_word by done. rewrite app_nil_r.
  rewrite words_from_end; [by rewrite rev_involutive|done|]. intros H. apply Hne. apply (f_equal (@rev ascii)) in H. by rewrite rev_involutive in H.
Qed.
Lemma words_one a : Forall (fun c => isspace c = false) a -> a <> [] -> words a = [a].
Proof.
  intros Ha Hne. unfold words. rewrite <- (app_nil_r a) at 1. rewrite words_from_word by done. rewrite app_nil_r.
  simpl. destruct (rev a) eqn:E.
  - apply (f_equal (@rev ascii)) in E. by rewrite rev_involutive in E.
  - rewrite <- E. by rewrite rev_involutive.
Qed.
