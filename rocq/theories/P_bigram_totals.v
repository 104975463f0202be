(** Sums over the tables of the string emission [bigram] that do not depend on the alignments. *)
From Coq Require Import ZArith Reals Ascii Lra.
From stdpp Require Import list gmap sorting.
From Coq Require Import Lia.
From Verif Require Import M_base M_text M_math M_dist M_distributions M_align M_bigram_emis
  S_math S_align S_bigram_emis P_base P_align P_bigram_emis P_bigram_costs P_bigram_reach.
Local Open Scope nat_scope.

Lemma printable_alphabet c : printable c <-> c ∈ alphabet.
Proof.
  unfold alphabet. split.
  - intros H. apply elem_of_list_fmap. exists (Z.to_nat (char_val c)). unfold printable in H. split; [|apply elem_of_seq; lia].
    rewrite Z2Nat.id by lia. apply char_val_inj. rewrite char_val_of; lia.
  - intros (n & -> & Hn%elem_of_seq)%elem_of_list_fmap. unfold printable. rewrite char_val_of; lia.
Qed.
Lemma alphabet_nodup : NoDup alphabet.
Proof.
  unfold alphabet. change (NoDup ((fun n => char_of (Z.of_nat n)) <$> seq 32 95)). apply NoDup_fmap_2_strong; [|apply NoDup_seq].
  intros x y Hx%elem_of_seq Hy%elem_of_seq E. apply (f_equal char_val) in E. rewrite !char_val_of in E by lia. lia.
Qed.
Lemma choices_iff o : choice_ok o <-> o ∈ choices.
Proof.
  unfold choices. destruct o as [c|]; cbn [choice_ok].
  - rewrite printable_alphabet, elem_of_cons. split; [intros H; right; by apply elem_of_list_fmap_1|]. intros [|H]; [done|]. by apply elem_of_list_fmap in H as (d & [= ->] & H).
  - split; [intros _; by left|done].
Qed.
Lemma choices_nodup : NoDup choices.
Proof.
  unfold choices. constructor; [by intros (c & ? & _)%elem_of_list_fmap|]. change (NoDup (Some <$> alphabet)). apply NoDup_fmap_2; [|apply alphabet_nodup]. by intros ?? [= ->].
Qed.

(** ** Sums of indicator functions *)
Section sums.
  Context {A : Type}.
  Implicit Types (l : list A) (f g : A -> R).
  Lemma sum_plus f g l : Rsum (map (fun x => f x + g x)%R l) = (Rsum (map f l) + Rsum (map g l))%R.
  Proof. unfold Rsum. induction l as [|x l IH]; cbn [map foldr]; [lra|]. rewrite IH. lra. Qed.
  Lemma sum_scale (c : R) f l : Rsum (map (fun x => c * f x)%R l) = (c * Rsum (map f l))%R.
  Proof. unfold Rsum. induction l as [|x l IH]; cbn [map foldr]; [lra|]. rewrite IH. lra. Qed.
  Lemma sum_zero f l : (forall x, x ∈ l -> f x = 0%R) -> Rsum (map f l) = 0%R.
  Proof. unfold Rsum. induction l as [|x l IH]; cbn [map foldr]; intros H; [done|]. rewrite (H x) by left. rewrite IH; [lra|]. intros y Hy. apply H. by right. Qed.
  Lemma sum_ext f g l : (forall x, x ∈ l -> f x = g x) -> Rsum (map f l) = Rsum (map g l).
  Proof. unfold Rsum. induction l as [|x l IH]; cbn [map foldr]; intros H; [done|]. rewrite (H x) by left. rewrite IH; [done|]. intros y Hy. apply H. by right. Qed.
  Lemma sum_one (P : A -> Prop) `{forall x, Decision (P x)} a l : NoDup l -> a ∈ l -> (forall x, P x <-> x = a) ->
    Rsum (map (fun x => if decide (P x) then 1 else 0)%R l) = 1%R.
  Proof.
    intros Hnd Ha HP. induction Hnd as [|x l Hx Hnd IH]; [by apply elem_of_nil in Ha|]. unfold Rsum in *. cbn [map foldr]. apply elem_of_cons in Ha as [->|Ha].
    - rewrite decide_True by by apply HP. fold (Rsum (map (fun x => if decide (P x) then 1 else 0)%R l)). rewrite sum_zero; [lra|]. intros y Hy. apply decide_False. intros ->%HP. done.
    - rewrite IH by done. rewrite decide_False; [lra|]. intros ->%HP. done.
  Qed.
  Lemma sum_none (P : A -> Prop) `{forall x, Decision (P x)} l : (forall x, x ∈ l -> ~ P x) -> Rsum (map (fun x => if decide (P x) then 1 else 0)%R l) = 0%R.
  Proof. intros HP. apply sum_zero. intros x Hx. apply decide_False. auto. Qed.
End sums.
Lemma sum_swap {A B} (f : A -> B -> R) (l : list A) (l' : list B) :
  Rsum (map (fun x => Rsum (map (f x) l')) l) = Rsum (map (fun y => Rsum (map (fun x => f x y) l)) l').
Proof.
  induction l as [|x l IH].
  - cbn [map]. symmetry. apply sum_zero. done.
  - cbn [map]. change (Rsum (?a :: ?r)) with (a + Rsum r)%R. rewrite IH.
    rewrite <- sum_plus. done.
Qed.

(** ** What an alignment contributes *)
Lemma replacements_of_char ps c : Forall known ps -> Rsum (map (fun d => times (c, d) (replacements ps)) choices) = times c (lefts ps).
Proof.
  unfold replacements, lefts. induction ps as [|p ps IH]; intros Hk; cbn [map concat].
  - apply sum_zero. done.
  - apply Forall_cons in Hk as [[H1 H2] Hk]. rewrite times_app, <- IH by done.
    rewrite (sum_ext _ (fun d => times (c, d) (replacement p) + times (c, d) (concat (map replacement ps)))%R) by (intros; by rewrite times_app).
    rewrite sum_plus. f_equal.
    assert (forall k o, choice_ok o -> Rsum (map (fun d => times (c, d) [(k, o)]) choices) = times c [k]) as E.
    { intros k o Ho. rewrite times_cons, times_nil, Rplus_0_r. rewrite (sum_ext _ (fun d => if decide ((k, o) = (c, d)) then 1 else 0)%R) by (intros; rewrite times_cons, times_nil; lra).
      destruct (decide (k = c)) as [->|Hne].
      - apply (sum_one (fun d => (c, o) = (c, d)) o); [apply choices_nodup|by apply choices_iff|]. intros x. split; congruence.
      - apply (sum_none (fun d => (k, o) = (c, d))). intros x _. congruence. }
    destruct p as [k|k|k k'|k]; cbn [replacement left_of].
    2:{ apply sum_zero. done. }
    all: apply E; [done || exact (proj1 (Forall_singleton _ _) H2)].
Qed.
Lemma no_insertions ps : forall ctx, choice_ok ctx -> Forall known ps ->
  Rsum (map (fun c => times (c, None) (insertion_choices ctx ps)) choices) = INR (length (lefts ps)).
Proof.
  induction ps as [|p ps IH]; intros ctx Hc Hk.
  - apply sum_zero. done.
  - apply Forall_cons in Hk as [Hp Hk]. destruct (known_next ctx p Hc Hp) as [Hn _]. rewrite insertion_choices_cons.
    rewrite (sum_ext _ (fun c => (if decide ((ctx, ins_choice p) = (c, None)) then 1 else 0) + times (c, None) (insertion_choices (next_ctx ctx p) ps))%R) by (intros; by rewrite times_cons).
    rewrite sum_plus, IH by done. unfold lefts at 2. cbn [map concat]. rewrite app_length, plus_INR. f_equal.
    destruct p as [k|k|k k'|k]; cbn [ins_choice left_of length INR].
    2:{ apply (sum_none (fun c => (ctx, Some k) = (c, None))). intros x _. congruence. }
    all: apply (sum_one (fun c => (ctx, None) = (c, None)) ctx); [apply choices_nodup|by apply choices_iff|]; intros x; split; congruence.
Qed.
Lemma dirty_chars ps c : forall ctx, choice_ok ctx -> printable c -> Forall known ps ->
  (Rsum (map (fun o => times (o, Some c) (insertion_choices ctx ps)) choices) + Rsum (map (fun k => times (k, Some c) (replacements ps)) alphabet))%R = times c (rights ps).
Proof.
  induction ps as [|p ps IH]; intros ctx Hc Hpc Hk.
  - cbn [insertion_choices replacements map concat]. rewrite !sum_zero by done. unfold rights. cbn [map concat]. rewrite times_nil. lra.
  - apply Forall_cons in Hk as [Hp Hk]. destruct (known_next ctx p Hc Hp) as [Hn _]. rewrite insertion_choices_cons.
    rewrite (sum_ext _ (fun o => (if decide ((ctx, ins_choice p) = (o, Some c)) then 1 else 0) + times (o, Some c) (insertion_choices (next_ctx ctx p) ps))%R) by (intros; by rewrite times_cons).
    unfold replacements, rights. cbn [map concat].
    rewrite (sum_ext (fun k => times (k, Some c) (replacement p ++ concat (map replacement ps))) (fun k => times (k, Some c) (replacement p) + times (k, Some c) (concat (map replacement ps)))%R) by (intros; by rewrite times_app).
    rewrite !sum_plus, times_app. specialize (IH _ Hn Hpc Hk). unfold replacements, rights in IH. rewrite <- IH.
    assert (Rsum (map (fun o => if decide ((ctx, ins_choice p) = (o, Some c)) then 1 else 0)%R choices) + Rsum (map (fun k => times (k, Some c) (replacement p)) alphabet) = times c (right_of p))%R as E; [|lra].
    assert (forall k o, printable k -> choice_ok o -> Rsum (map (fun x => times (x, Some c) [(k, o)]) alphabet) = if decide (o = Some c) then 1%R else 0%R) as Er.
    { intros k o Hkp Ho. rewrite (sum_ext _ (fun x => if decide ((k, o) = (x, Some c)) then 1 else 0)%R) by (intros; rewrite times_cons, times_nil; lra).
      destruct (decide (o = Some c)) as [->|Hne].
      - apply (sum_one (fun x => (k, Some c) = (x, Some c)) k); [apply alphabet_nodup|by apply printable_alphabet|]. intros x. split; congruence.
      - apply (sum_none (fun x => (k, o) = (x, Some c))). intros x _. congruence. }
    assert (forall o, ins_choice p = None -> (ctx, ins_choice p) <> (o, Some c)) as Hno by (intros o ->; congruence).
    destruct Hp as [Hp1 Hp2].
    destruct p as [k|k|k k'|k]; cbn [ins_choice left_of right_of replacement] in *.
    + rewrite Er; [|exact (proj1 (Forall_singleton _ _) Hp1)|done]. rewrite (sum_none (fun o => (ctx, None) = (o, Some c))) by auto. rewrite decide_False, times_nil by done. lra.
    + rewrite (sum_zero (fun k0 => times (k0, Some c) [])) by done. rewrite times_cons, times_nil. destruct (decide (k = c)) as [->|Hne].
      * rewrite (sum_one (fun o => (ctx, Some c) = (o, Some c)) ctx); [lra|apply choices_nodup|by apply choices_iff|]. intros x. split; congruence.
      * rewrite (sum_none (fun o => (ctx, Some k) = (o, Some c))); [lra|]. intros x _. congruence.
    + rewrite Er; [|exact (proj1 (Forall_singleton _ _) Hp1)|exact (proj1 (Forall_singleton _ _) Hp2)]. rewrite (sum_none (fun o => (ctx, None) = (o, Some c))) by auto.
      rewrite times_cons, times_nil. destruct (decide (k' = c)) as [->|Hne]; [rewrite decide_True by done; lra|]. rewrite decide_False by congruence. lra.
    + rewrite Er; [|exact (proj1 (Forall_singleton _ _) Hp1)|exact (proj1 (Forall_singleton _ _) Hp2)]. rewrite (sum_none (fun o => (ctx, None) = (o, Some c))) by auto.
      rewrite times_cons, times_nil. destruct (decide (k = c)) as [->|Hne]; [rewrite decide_True by done; lra|]. rewrite decide_False by congruence. lra.
Qed.

(** ** What a call contributes *)
Lemma average (found : list alignment) (f : list piece -> R) v : found <> [] -> (forall a, a ∈ found -> f (a_pieces a) = v) ->
  Rsum (map (fun a => a.2 * f a.1)%R (weighted found)) = v.
Proof.
  intros Hne Hf. rewrite (sum_ext _ (fun a : list piece * R => v * a.2)%R).
  - rewrite sum_scale. change (fun x : list piece * R => x.2) with (@snd (list piece) R). rewrite weighted_sum by done. lra.
  - intros x (a & -> & Ha)%elem_of_list_fmap. cbn [fst snd]. rewrite Hf by done. lra.
Qed.
Lemma average_sum {B} (found : list alignment) (f : B -> list piece -> R) (l : list B) v : found <> [] ->
  (forall a, a ∈ found -> Rsum (map (fun y => f y (a_pieces a)) l) = v) ->
  Rsum (map (fun y => Rsum (map (fun a => a.2 * f y a.1)%R (weighted found))) l) = v.
Proof.
  intros Hne Hf. rewrite sum_swap. rewrite <- (average found (fun q => Rsum (map (fun y => f y q) l)) v Hne Hf).
  apply sum_ext. intros x _. by rewrite sum_scale.
Qed.
Lemma incorporate_totals pick b x w b' : valid_pick pick -> bs_shape b -> printables x.1 -> printables x.2 -> bs_incorporate pick b x w = Ok b' ->
  (forall c, printable c -> Rsum (map (replaced b' c) choices) = Rsum (map (replaced b c) choices) + w * times c x.1)%R /\
  Rsum (map (fun o => inserted b' o None) choices) = (Rsum (map (fun o => inserted b o None) choices) + w * INR (length x.1))%R /\
  (forall c, printable c ->
    Rsum (map (fun o => inserted b' o (Some c)) choices) + Rsum (map (fun k => replaced b' k (Some c)) alphabet) =
    Rsum (map (fun o => inserted b o (Some c)) choices) + Rsum (map (fun k => replaced b k (Some c)) alphabet) + w * times c x.2)%R.
Proof.
  intros Hp Hb H1 H2 H. destruct (incorporate_run pick b x w Hp Hb H1 H2) as (b1 & found & E & _ & Hne & Hal & _ & [_ _ Gi Gs]).
  rewrite E in H. injection H as ->. split_and!.
  - intros c Hc. rewrite (sum_ext (replaced b' c) (fun d => replaced b c d + w * Rsum (map (fun a => a.2 * times (c, d) (replacements a.1)) (weighted found)))%R)
      by (intros d Hd; apply Gs; [done|by apply choices_iff]).
    rewrite sum_plus, sum_scale. f_equal. f_equal. apply (average_sum found (fun d q => times (c, d) (replacements q))); [done|].
    intros a Ha. destruct (Hal a Ha) as [Hq _]. rewrite replacements_of_char by by eapply aligns_known. by destruct Hq as (-> & _).
  - rewrite (sum_ext (fun o => inserted b' o None) (fun o => inserted b o None + w * Rsum (map (fun a => a.2 * times (o, None) (insertion_choices None a.1)) (weighted found)))%R)
      by (intros o Ho; apply Gi; [by apply choices_iff|done]).
    rewrite sum_plus, sum_scale. f_equal. f_equal. apply (average_sum found (fun o q => times (o, None) (insertion_choices None q))); [done|].
    intros a Ha. destruct (Hal a Ha) as [Hq _]. rewrite no_insertions; [|done|by eapply aligns_known]. by destruct Hq as (-> & _).
  - intros c Hc.
    rewrite (sum_ext (fun o => inserted b' o (Some c)) (fun o => inserted b o (Some c) + w * Rsum (map (fun a => a.2 * times (o, Some c) (insertion_choices None a.1)) (weighted found)))%R)
      by (intros o Ho; apply Gi; [by apply choices_iff|done]).
    rewrite (sum_ext (fun k => replaced b' k (Some c)) (fun k => replaced b k (Some c) + w * Rsum (map (fun a => a.2 * times (k, Some c) (replacements a.1)) (weighted found)))%R)
      by (intros k Hk; apply Gs; [by apply printable_alphabet|done]).
    rewrite !sum_plus, !sum_scale.
    set (S1 := Rsum (map (fun o => Rsum (map (fun a => a.2 * times (o, Some c) (insertion_choices None a.1))%R (weighted found))) choices)).
    set (S2 := Rsum (map (fun k => Rsum (map (fun a => a.2 * times (k, Some c) (replacements a.1))%R (weighted found))) alphabet)).
    assert (S1 + S2 = times c x.2)%R as E2; [|rewrite <- E2; lra]. unfold S1, S2.
    rewrite (sum_swap (fun o a => a.2 * times (o, Some c) (insertion_choices None a.1))%R), (sum_swap (fun k a => a.2 * times (k, Some c) (replacements a.1))%R), <- sum_plus.
    rewrite <- (average found (fun q => Rsum (map (fun o => times (o, Some c) (insertion_choices None q)) choices) + Rsum (map (fun k => times (k, Some c) (replacements q)) alphabet))%R (times c x.2) Hne).
    + apply sum_ext. intros a _. rewrite !sum_scale. lra.
    + intros a Ha. destruct (Hal a Ha) as [Hq _]. rewrite dirty_chars; [|done|done|by eapply aligns_known]. by destruct Hq as (_ & -> & _).
Qed.
