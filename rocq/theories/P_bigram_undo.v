(** A new emission [bigram] that learns and unlearns one pair of characters. *)
From Coq Require Import ZArith Reals Ascii String Lra.
From stdpp Require Import list gmap sorting.
From Coq Require Import Lia.
From Verif Require Import M_base M_text M_math M_dist M_distributions M_align M_bigram_emis
  S_math S_align S_bigram_emis P_base P_math P_align P_bigram_emis P_bigram_costs P_bigram_reach P_bigram_totals P_bigram_shares.
Local Open Scope nat_scope.

Lemma sum_times {A} `{EqDecision A} (c : A) (l : list (A * option ascii)) : Forall (fun e => choice_ok e.2) l ->
  Rsum (map (fun d => times (c, d) l) choices) = times c (map fst l).
Proof.
  induction l as [|[c' d'] l IH]; intros Hl.
  - cbn [map]. rewrite times_nil. apply sum_zero. intros d _. apply times_nil.
  - apply Forall_cons in Hl as [Hd Hl]. cbn [snd fst map] in *. rewrite times_cons, <- (IH Hl).
    rewrite (sum_ext _ (fun d => (if decide ((c', d') = (c, d)) then 1 else 0) + times (c, d) l)%R) by (intros d _; apply times_cons).
    rewrite sum_plus. f_equal. destruct (decide (c' = c)) as [->|Hc].
    + apply (sum_one (fun d => (c, d') = (c, d)) d'); [apply choices_nodup|by apply choices_iff|]. intros d. split; [by intros [=]|by intros ->].
    + apply (sum_none (fun d => (c', d') = (c, d))). intros d _ [=]. done.
Qed.

Lemma fresh_plain e : bs_new = Ok e -> plain e /\ bs_pos e /\ bs_N e = 0%R /\
  (forall c d, choice_ok c -> choice_ok d -> inserted e c d = if decide (d = None) then 9216%R else 0%R) /\
  (forall c d, printable c -> choice_ok d -> replaced e c d = if decide (d = Some c) then 9216%R else 0%R) /\
  (forall c, choice_ok c -> Rsum (map (inserted e c) choices) = 9216%R) /\
  (forall c, printable c -> Rsum (map (replaced e c) choices) = 9216%R).
Proof.
  intros He. destruct bs_new_ok as (b & Hb & Hs & Hp & HN & Ha & Hi & Hr). rewrite He in Hb. injection Hb as <-. clear He.
  change bs_bias with 9216%R in *.
  split_and!; [split; [done|rewrite Ha, blank_alphas; by apply Forall_replicate]|exact Hp|exact HN|exact Hi|exact Hr| |].
  - intros c Hc. rewrite (sum_ext _ (fun d => 9216 * (if decide (d = None) then 1 else 0))%R).
    2:{ intros d Hd. rewrite Hi by (try done; by apply choices_iff). destruct (decide (d = None)); lra. }
    rewrite sum_scale, (sum_one (fun d => d = None) None choices); [lra|apply choices_nodup|by apply choices_iff|done].
  - intros c Hc. rewrite (sum_ext _ (fun d => 9216 * (if decide (d = Some c) then 1 else 0))%R).
    2:{ intros d Hd. rewrite Hr by (try done; by apply choices_iff). destruct (decide (d = Some c)); lra. }
    rewrite sum_scale, (sum_one (fun d => d = Some c) (Some c) choices); [lra|apply choices_nodup|by apply choices_iff|done].
Qed.
Lemma plain_grown e e' di ds : plain e -> grown e e' di ds -> plain e'.
Proof. intros [_ Ha] [G1 G2 _ _]. split; [done|by rewrite G2]. Qed.

Local Definition ca : ascii := "a".
Local Definition cb : ascii := "b".
Lemma ca_ok : printable ca. Proof. by vm_compute. Qed.
Lemma cb_ok : printable cb. Proof. by vm_compute. Qed.
Lemma ca_cb : ca <> cb. Proof. done. Qed.
Ltac calc_times := unfold times; repeat match goal with |- context [length (filter ?P ?l)] =>
  let n := eval vm_compute in (length (filter P l)) in change (length (filter P l)) with n end; cbn [INR].

Ltac decides := repeat match goal with |- context [@decide ?P ?D] => first [rewrite (@decide_True _ P D) by done | rewrite (@decide_False _ P D) by done] end.

(** The three alignments of the pair. *)
Lemma searched_S e : p_searched e (pS ca cb) = (p_insert e (Some ca) None * p_replace e ca (Some cb))%R.
Proof. unfold p_searched, pS, Rprod, replacements. cbn [search_choices replacement map concat foldr app fst snd left_of head]. lra. Qed.
Lemma searched_DI e : p_searched e (pDI ca cb) = (p_insert e (Some ca) None * p_insert e (Some ca) (Some cb) * p_replace e ca None)%R.
Proof. unfold p_searched, pDI, Rprod, replacements. cbn [search_choices replacement map concat foldr app fst snd left_of head]. lra. Qed.
Lemma searched_ID e : p_searched e (pID ca cb) = (p_insert e None (Some cb) * p_insert e (Some ca) None * p_replace e ca None)%R.
Proof. unfold p_searched, pID, Rprod, replacements. cbn [search_choices replacement map concat foldr app fst snd left_of head]. lra. Qed.

Lemma fresh_searched e : bs_new = Ok e -> p_searched e (pS ca cb) = (9217 / 9312 * (1 / 9312))%R /\
  p_searched e (pDI ca cb) = (9217 / 9312 * (1 / 9312) * (1 / 9312))%R /\ p_searched e (pID ca cb) = (9217 / 9312 * (1 / 9312) * (1 / 9312))%R.
Proof.
  intros He. destruct (fresh_plain e He) as (Hpl & _ & _ & Hi & Hr & Si & Sr). clear He.
  rewrite searched_S, searched_DI, searched_ID. pose proof ca_ok. pose proof cb_ok.
  rewrite !plain_insert, !plain_replace by done. rewrite !Si, !Sr by done. rewrite !Hi, !Hr by done.
  repeat (rewrite decide_True by done). repeat (rewrite decide_False by done).
  replace (1 + 9216)%R with 9217%R by lra. replace (9216 + 96)%R with 9312%R by lra. replace (1 + 0)%R with 1%R by lra. split_and!; lra.
Qed.

(** What the fresh emission learns from the pair. *)
Lemma fresh_pair pick e : least_pick pick -> bs_new = Ok e -> exists e' X, bs_incorporate pick e ([ca], [cb]) 1 = Ok e' /\
  (X = pDI ca cb \/ X = pID ca cb) /\ plain e' /\ bs_pos e' /\
  (forall c d, choice_ok c -> choice_ok d -> inserted e' c d = (if decide (d = None) then 9216 else 0) +
     (1 / 9313 * times (c, d) (insertion_choices None (pS ca cb)) + 9312 / 9313 * times (c, d) (insertion_choices None X)))%R /\
  (forall c d, printable c -> choice_ok d -> replaced e' c d = (if decide (d = Some c) then 9216 else 0) +
     (1 / 9313 * times (c, d) (replacements (pS ca cb)) + 9312 / 9313 * times (c, d) (replacements X)))%R /\
  (forall c, choice_ok c -> Rsum (map (inserted e' c) choices) = 9216 +
     (1 / 9313 * times c (map fst (insertion_choices None (pS ca cb))) + 9312 / 9313 * times c (map fst (insertion_choices None X))))%R /\
  (forall c, printable c -> Rsum (map (replaced e' c) choices) = 9216 +
     (1 / 9313 * times c (map fst (replacements (pS ca cb))) + 9312 / 9313 * times c (map fst (replacements X))))%R.
Proof.
  intros Hl He. destruct (fresh_searched e He) as (E1 & E2 & E3). destruct (fresh_plain e He) as (Hpl & Hpos & HN & Hi & Hr & Si & Sr). clear He.
  destruct (pair_run ca cb ca_cb pick e 1 Hl (proj1 Hpl) Hpos ca_ok cb_ok) as (e' & X & He' & HX & _ & _ & _ & _ & G); [rewrite E1, E2; lra|rewrite E1, E3; lra|].
  cbv zeta in G. assert (p_searched e X = (9217 / 9312 * (1 / 9312) * (1 / 9312))%R) as EX by (destruct HX as [->| ->]; done).
  assert (p_searched e X / (p_searched e (pS ca cb) + p_searched e X) = 1 / 9313)%R as Es by (rewrite E1, EX; field).
  rewrite Es in G. replace (1 - 1 / 9313)%R with (9312 / 9313)%R in G by lra.
  assert (bs_pos e') as Hpos'.
  { eapply (incorporate_pos pick e ([ca], [cb]) 1 e'); [by apply least_valid|apply Hpl|done|by repeat constructor|by repeat constructor|lra|done]. }
  exists e', X. pose proof (plain_grown _ _ _ _ Hpl G) as Hpl'. destruct G as [_ _ G3 G4].
  assert (Forall (fun x => choice_ok x.2) (insertion_choices None (pS ca cb)) /\ Forall (fun x => choice_ok x.2) (insertion_choices None X) /\
     Forall (fun x => choice_ok x.2) (replacements (pS ca cb)) /\ Forall (fun x => choice_ok x.2) (replacements X)) as (F1 & F2 & F3 & F4).
  { destruct HX as [->| ->]; split_and!; repeat (apply List.Forall_cons || apply List.Forall_nil); done. }
  split_and!; [done|done|done|done| | | |].
  - intros c d Hc Hd. rewrite G3, Hi by done. lra.
  - intros c d Hc Hd. rewrite G4, Hr by done. lra.
  - intros c Hc. rewrite (sum_ext _ (fun d => inserted e c d + (1 / 9313 * times (c, d) (insertion_choices None (pS ca cb)) + 9312 / 9313 * times (c, d) (insertion_choices None X)))%R).
    2:{ intros d Hd. apply choices_iff in Hd. rewrite G3 by done. lra. }
    rewrite sum_plus, Si by done. f_equal.
    rewrite (sum_plus (fun d => 1 / 9313 * times (c, d) (insertion_choices None (pS ca cb)))%R (fun d => 9312 / 9313 * times (c, d) (insertion_choices None X))%R).
    by rewrite !sum_scale, !sum_times.
  - intros c Hc. rewrite (sum_ext _ (fun d => replaced e c d + (1 / 9313 * times (c, d) (replacements (pS ca cb)) + 9312 / 9313 * times (c, d) (replacements X)))%R).
    2:{ intros d Hd. apply choices_iff in Hd. rewrite G4 by done. lra. }
    rewrite sum_plus, Sr by done. f_equal.
    rewrite (sum_plus (fun d => 1 / 9313 * times (c, d) (replacements (pS ca cb)))%R (fun d => 9312 / 9313 * times (c, d) (replacements X))%R).
    by rewrite !sum_scale, !sum_times.
Qed.

(** Unlearning the pair takes more from the substitution than learning gave it. *)
Lemma odds_cancel k s x : (0 < k)%R -> (0 < s)%R -> (0 < x)%R -> (k * x / (k * s + k * x) = x / (s + x))%R.
Proof. intros. assert (0 < k * s)%R by by apply Rmult_lt_0_compat. assert (0 < k * x)%R by by apply Rmult_lt_0_compat. field. split; lra. Qed.
Lemma fresh_undo pick e : least_pick pick -> bs_new = Ok e -> exists e' e'', bs_incorporate pick e ([ca], [cb]) 1 = Ok e' /\
  replaced e' ca (Some cb) = (1 / 9313)%R /\ replaced e' ca None = (9312 / 9313)%R /\
  bs_unincorporate pick e' ([ca], [cb]) = Ok e'' /\ (replaced e'' ca (Some cb) < - (1 / 10000))%R.
Proof.
  intros Hl He. destruct (fresh_pair pick e Hl He) as (e' & X & He' & HX & Hpl & Hpos & Hi & Hr & Si & Sr). clear He.
  pose proof ca_ok as Ka. pose proof cb_ok as Kb.
  assert (replaced e' ca (Some cb) = 1 / 9313 /\ replaced e' ca None = 9312 / 9313 /\ Rsum (map (replaced e' ca) choices) = 9217 /\ inserted e' (Some ca) None = 9216)%R as (V1 & V2 & V3 & V4).
  { rewrite !Hr, Sr, Hi by done. decides. destruct HX as [->| ->]; calc_times; split_and!; lra. }
  set (K := p_insert e' (Some ca) None).
  assert (0 < K)%R as HK by (apply (p_insert_ok e' (Some ca) None); [apply Hpl|done|done|done]).
  assert (p_replace e' ca (Some cb) = 9314 / 9313 / 9313)%R as R1 by (rewrite plain_replace, V1, V3 by done; lra).
  assert (p_replace e' ca None = 18625 / 9313 / 9313)%R as R2 by (rewrite plain_replace, V2, V3 by done; lra).
  assert (exists x y, (0 < y <= x)%R /\ (4 / 10000 < x < 5 / 10000)%R /\ p_searched e' X = (K * (x * (9314 / 9313 / 9313)))%R /\
     ((X = pDI ca cb /\ p_searched e' (pID ca cb) = (K * (y * (9314 / 9313 / 9313)))%R /\ (y < x)%R) \/
      (X = pID ca cb /\ p_searched e' (pDI ca cb) = (K * (y * (9314 / 9313 / 9313)))%R /\ (y < x)%R))) as (x & y & Hy & Hx & EX & EY).
  { destruct HX as [->| ->].
    - assert (p_insert e' (Some ca) (Some cb) = 18625 / 86731968)%R as I1.
      { rewrite plain_insert, Hi, Si by done. decides. calc_times. field. }
      assert (p_insert e' None (Some cb) = 1 / 9313)%R as I2.
      { rewrite plain_insert, Hi, Si by done. decides. calc_times. field. }
      exists (18625 / 86731968 * (18625 / 9314))%R, (1 / 9313 * (18625 / 9314))%R. split; [lra|]. split; [lra|].
      split; [rewrite searched_DI, I1, R2; fold K; lra|]. left. split; [done|]. split; [rewrite searched_ID, I2, R2; fold K; lra|lra].
    - assert (p_insert e' (Some ca) (Some cb) = 1 / 9312)%R as I1.
      { rewrite plain_insert, Hi, Si by done. decides. calc_times. field. }
      assert (p_insert e' None (Some cb) = 18625 / 86741281)%R as I2.
      { rewrite plain_insert, Hi, Si by done. decides. calc_times. field. }
      exists (18625 / 86741281 * (18625 / 9314))%R, (1 / 9312 * (18625 / 9314))%R. split; [lra|]. split; [lra|].
      split; [rewrite searched_ID, I2, R2; fold K; lra|]. right. split; [done|]. split; [rewrite searched_DI, I1, R2; fold K; lra|lra]. }
  assert (p_searched e' (pS ca cb) = K * (1 * (9314 / 9313 / 9313)))%R as ES by (rewrite searched_S, R1; fold K; lra).
  set (t := (9314 / 9313 / 9313)%R) in *. assert (0 < t)%R as Ht by (unfold t; lra).
  assert (forall u v, (u < v)%R -> (K * (u * t) < K * (v * t))%R) as Hlt.
  { intros u v Huv. apply Rmult_lt_compat_l; [done|]. by apply Rmult_lt_compat_r. }
  destruct (pair_run ca cb ca_cb pick e' (-1) Hl (proj1 Hpl) Hpos ca_ok cb_ok) as (e'' & X' & He'' & HX' & L1 & L2 & _ & _ & G).
  { rewrite ES. destruct EY as [(<- & _ & _)|(_ & -> & _)]; [rewrite EX|]; apply Hlt; lra. }
  { rewrite ES. destruct EY as [(_ & -> & _)|(<- & _ & _)]; [|rewrite EX]; apply Hlt; lra. }
  assert (X' = X) as ->.
  { destruct HX' as [->| ->], EY as [(E & EYe & Hl')|(E & EYe & Hl')]; try done; exfalso; rewrite <- E in *; rewrite EX, EYe in *; specialize (Hlt _ _ Hl'); lra. }
  exists e', e''. split; [exact He'|]. split; [exact V1|]. split; [exact V2|]. split; [exact He''|]. cbv zeta in G. destruct G as [_ _ _ G4].
  rewrite G4, V1 by done. rewrite ES, EX, odds_cancel by (try done; apply Rmult_lt_0_compat; lra).
  assert (1 * t + x * t <> 0)%R by (assert (0 < x * t)%R by (apply Rmult_lt_0_compat; lra); lra).
  replace (x * t / (1 * t + x * t))%R with (x / (1 + x))%R by (field; repeat split; lra).
  assert (times (ca, Some cb) (replacements X) = 0 /\ times (ca, Some cb) (replacements (pS ca cb)) = 1)%R as [-> ->].
  { destruct HX as [->| ->]; calc_times; done. }
  assert (39 / 100000 < x / (1 + x))%R; [|lra]. apply Rmult_lt_reg_r with (1 + x)%R; [lra|]. unfold Rdiv at 2. rewrite Rmult_assoc, Rinv_l by lra. lra.
Qed.
