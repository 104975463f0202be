(** What the emissions propose as the clean value. *)
From Coq Require Import ZArith Reals Ascii Lra.
From stdpp Require Import list gmap.
From Coq Require Import Lia.
From Verif Require Import M_base M_text M_math M_dist M_distributions M_noisy M_emissions
  S_math S_dist S_relation S_emissions P_base P_math P_dist P_text P_align P_normal.
Local Open Scope nat_scope.

Section mode.
Context {V : Type} `{EqDecision V}.
Lemma occ_snoc (x y : V) l : occurrences x (l ++ [y]) = occurrences x l + (if decide (y = x) then 1 else 0).
Proof. unfold occurrences. rewrite filter_app, app_length. f_equal. rewrite filter_cons. destruct (decide (y = x)); done. Qed.
Lemma mode_fold (start : V) l :
  let st := foldl mode_step (fun _ => 0, start, 0) l in
  (forall x, st.1.1 x = occurrences x l) /\ (forall x, occurrences x l <= st.2) /\
  (l = [] /\ st.1.2 = start /\ st.2 = 0 \/ st.1.2 ∈ l /\ occurrences st.1.2 l = st.2).
Proof.
  induction l as [|c l IH] using rev_ind; cbn zeta in *; [split_and!; [done|done|by left]|]. rewrite foldl_app. cbn [foldl].
  destruct (foldl mode_step _ l) as [[counts mode] mx]. cbn [fst snd] in IH. destruct IH as (Hc & Hle & Hm). unfold mode_step.
  rewrite decide_True by done. destruct (Nat.ltb_spec mx (S (counts c))) as [Hlt|Hge]; cbn [fst snd].
  - split_and!.
    + intros x. rewrite occ_snoc, (Hc c). destruct (decide (x = c)) as [->|Hn]; [rewrite decide_True by done; lia|]. rewrite decide_False by congruence. rewrite Hc. lia.
    + intros x. rewrite occ_snoc. specialize (Hle x). destruct (decide (c = x)); lia.
    + right. split; [apply elem_of_app; right; by apply elem_of_list_singleton|]. rewrite occ_snoc, decide_True by done. rewrite Hc. lia.
  - split_and!.
    + intros x. rewrite occ_snoc, (Hc c). destruct (decide (x = c)) as [->|Hn]; [rewrite decide_True by done; lia|]. rewrite decide_False by congruence. rewrite Hc. lia.
    + intros x. rewrite occ_snoc. rewrite Hc in Hge. specialize (Hle x). destruct (decide (c = x)) as [->|]; lia.
    + right. destruct Hm as [(-> & _ & ->)|[Hin Ho]]; [lia|]. split; [apply elem_of_app; by left|]. rewrite occ_snoc.
      rewrite Hc in Hge. destruct (decide (c = mode)) as [->|]; [|lia]. lia.
Qed.
Lemma mode_frequent (start : V) l : l <> [] -> most_frequent (mode_of start l) l.
Proof.
  intros Hl. destruct (mode_fold start l) as (_ & Hle & [[-> _]|[Hin Ho]]); [done|]. unfold mode_of. split; [done|]. intros x. rewrite Ho. apply Hle.
Qed.
Lemma majority (m x : V) l : most_frequent m l -> length l < 2 * occurrences x l -> m = x.
Proof.
  intros [_ Hm] Hx. specialize (Hm x). destruct (decide (m = x)) as [|Hn]; [done|exfalso].
  assert (occurrences m l + occurrences x l <= length l); [|lia]. clear Hx Hm. induction l as [|y l IH]; [done|].
  rewrite !occurrences_cons. cbn [length]. destruct (decide (y = m)) as [->|]; [rewrite decide_False by congruence|destruct (decide (y = x))]; lia.
Qed.
End mode.

(** The running mean. *)
Lemma mean_fold l : foldl ga_mean_step (0%R, 0) l = (mean_of l, length l).
Proof.
  induction l as [|x l IH] using rev_ind; [done|]. rewrite foldl_app, IH. cbn [foldl ga_mean_step]. rewrite app_length. cbn [length]. rewrite Nat.add_1_r. f_equal.
  assert (mean_of (l ++ [x]) = (Rsum (l ++ [x]) / INR (length (l ++ [x])))%R) as -> by (by destruct l).
  rewrite app_length. cbn [length]. rewrite Nat.add_1_r, Rsum_app, Rsum_cons. change (Rsum []) with 0%R.
  pose proof (pos_INR (length l)). rewrite S_INR. destruct l as [|y l]; [change (mean_of []) with 0%R; change (Rsum []) with 0%R; change (INR (length [])) with 0%R; field|]. unfold mean_of. set (m := y :: l) in *.
  assert (INR (length m) <> 0%R) by (apply not_0_INR; unfold m; cbn; lia). field. repeat split; first [done | lra].
Qed.

(** Votes. *)
Lemma vote_spec fuel : forall i corrupted clean, (forall s, s ∈ corrupted -> length s <= i + fuel) -> i + fuel = i + fuel ->
  exists m, vote (S fuel) i corrupted clean = Ok (clean ++ m) /\
    (forall j, j < length m -> exists c, m !! j = Some c /\ c <> nul /\ mode_of nul (map (char_at (i + j)) corrupted) = c) /\
    mode_of nul (map (char_at (i + length m)) corrupted) = nul.
Proof.
  induction fuel as [|fuel IH]; intros i corrupted clean Hl _.
  - exists []. cbn [vote length]. rewrite Nat.add_0_r.
    assert (mode_of nul (map (char_at i) corrupted) = nul) as E.
    { destruct (mode_fold nul (map (char_at i) corrupted)) as (_ & _ & [(_ & E0 & _)|[Hin _]]); [exact E0|]. apply elem_of_list_fmap in Hin as (s & Hs & Hin).
      unfold mode_of. rewrite Hs. unfold char_at. rewrite lookup_ge_None_2; [done|]. specialize (Hl s Hin). lia. }
    rewrite E. assert (ceqb nul nul = true) as -> by done. rewrite app_nil_r. split_and!; [done|intros j Hj; lia|done].
  - change (vote (S (S fuel)) i corrupted clean) with (if ceqb (mode_of nul (map (char_at i) corrupted)) nul then Ok clean else vote (S fuel) (S i) corrupted (clean ++ [mode_of nul (map (char_at i) corrupted)])).
    destruct (ceqb _ nul) eqn:E.
    + apply ceqb_iff in E. exists []. rewrite app_nil_r. cbn [length]. rewrite Nat.add_0_r. split_and!; [done|intros j Hj; lia|done].
    + assert (mode_of nul (map (char_at i) corrupted) <> nul) as Hn by (intros Hn; rewrite Hn in E; done).
      destruct (IH (S i) corrupted (clean ++ [mode_of nul (map (char_at i) corrupted)])) as (m & Hv & Hm & He); [intros s Hs; specialize (Hl s Hs); lia|done|].
      exists (mode_of nul (map (char_at i) corrupted) :: m). split_and!.
      * by rewrite Hv, <- app_assoc.
      * intros [|j] Hj; [exists (mode_of nul (map (char_at i) corrupted)); rewrite Nat.add_0_r; done|]. destruct (Hm j) as (c & Hc); [cbn in Hj; lia|].
        exists c. replace (i + S j) with (S i + j) by lia. exact Hc.
      * cbn [length]. replace (i + S (length m)) with (S i + length m) by lia. done.
Qed.
Lemma max_list_with_le {A} (f : A -> nat) l x : x ∈ l -> f x <= max_list_with f l.
Proof. induction 1; cbn; lia. Qed.
Lemma propose_spec corrupted : exists m, ss_propose corrupted = Ok m /\
  (forall j, j < length m -> exists c, m !! j = Some c /\ c <> nul /\ mode_of nul (map (char_at j) corrupted) = c) /\
  mode_of nul (map (char_at (length m)) corrupted) = nul.
Proof.
  destruct (vote_spec (max_list_with length corrupted) 0 corrupted []) as (m & Hv & H); [|done|exists m; split; [exact Hv|exact H]].
  intros s Hs. cbn. by apply max_list_with_le.
Qed.
Lemma occ_map {A B} `{EqDecision A, EqDecision B} (f : A -> B) (x : A) l : occurrences x l <= occurrences (f x) (map f l).
Proof. induction l as [|y l IH]; [done|]. cbn [map]. rewrite !occurrences_cons. destruct (decide (y = x)) as [->|]; [rewrite decide_True by done|destruct (decide (f y = f x))]; lia. Qed.
Lemma propose_majority s corrupted : nul ∉ s -> length corrupted < 2 * occurrences s corrupted -> ss_propose corrupted = Ok s.
Proof.
  intros Hs Hmaj. destruct (propose_spec corrupted) as (m & -> & Hm & He). f_equal.
  assert (forall i, mode_of nul (map (char_at i) corrupted) = char_at i s) as Hc.
  { intros i. apply (majority _ _ (map (char_at i) corrupted)).
    - apply mode_frequent. destruct corrupted; [cbn in Hmaj; lia|done].
    - rewrite map_length. pose proof (occ_map (char_at i) s corrupted). lia. }
  assert (length m = length s) as HL.
  { destruct (Nat.lt_trichotomy (length m) (length s)) as [H|[H|H]]; [|done|]; exfalso.
    - rewrite Hc in He. unfold char_at in He. destruct (lookup_lt_is_Some_2 s (length m) H) as [c Hl]. rewrite Hl in He. cbn in He. subst c.
      apply Hs. by eapply elem_of_list_lookup_2.
    - destruct (Hm (length s) H) as (c & _ & Hn & Hl). rewrite Hc in Hl. unfold char_at in Hl. rewrite lookup_ge_None_2 in Hl by lia. by cbn in Hl. }
  apply list_eq. intros i. destruct (decide (i < length m)) as [Hi|Hi].
  - destruct (Hm i Hi) as (c & Hl & _ & Hcc). rewrite Hl, <- Hcc, Hc. unfold char_at.
    destruct (lookup_lt_is_Some_2 s i) as [d Hd]; [lia|]. by rewrite Hd.
  - rewrite !lookup_ge_None_2; [done|lia|lia].
Qed.

(** The state with the highest total. *)
Lemma cg_total_from d l : forall a t, foldM (fun lp c => let* y := dc_logp d c in Ok (lp + y)%R) a l = Ok t -> exists u, total_of (dc_logp d) l u /\ t = (a + u)%R.
Proof.
  induction l as [|x l IH]; intros a t H; cbn [foldM] in H.
  - injection H as <-. exists 0%R. split; [by exists []|lra].
  - apply obind_Ok in H as (a' & H & Hf). apply obind_Ok in H as (y & Hy & [= <-]). destruct (IH _ _ Hf) as (u & (ts & HF & ->) & ->).
    exists (y + Rsum ts)%R. split; [exists (y :: ts); split; [by constructor|done]|lra].
Qed.
Lemma cg_total_spec d l t : cg_total d l = Ok t -> total_of (dc_logp d) l t.
Proof. intros H. destruct (cg_total_from d l 0%R t H) as (u & Hu & ->). by rewrite Rplus_0_l. Qed.
Lemma propose_fold l ds st : foldM (cg_propose_step l) (0, 0%Z, None) ds = Ok st ->
  st.1.1 = length ds /\
  (ds = [] /\ st = (0, 0%Z, None) \/
   exists i best, i < length ds /\ st.1.2 = Z.of_nat i /\ st.2 = Some best /\
     forall j d, ds !! j = Some d -> exists t, total_of (dc_logp d) l t /\ (t <= best)%R /\ (j < i -> (t < best)%R) /\ (j = i -> t = best)).
Proof.
  revert st. induction ds as [|d ds IH] using rev_ind; intros st H; [injection H as <-; split; [done|by left]|].
  rewrite foldM_app in H. apply obind_Ok in H as ([[n b] low] & H0 & H). destruct (IH _ H0) as [Hn Hi]. cbn [fst snd] in Hn, Hi. subst n.
  cbn [foldM] in H. unfold cg_propose_step in H. apply obind_Ok in H as (st' & H & E). cbn in E. injection E as <-. apply obind_Ok in H as (lp & Hlp & H). apply cg_total_spec in Hlp.
  assert (forall i best, i <= length ds -> (forall j d, ds !! j = Some d -> exists t, total_of (dc_logp d) l t /\ (t <= best)%R /\ (j < i -> (t < best)%R) /\ (j = i -> t = best)) ->
    (lp <= best)%R -> (length ds < i -> (lp < best)%R) -> (length ds = i -> lp = best) ->
    forall j d', (ds ++ [d]) !! j = Some d' -> exists t, total_of (dc_logp d') l t /\ (t <= best)%R /\ (j < i -> (t < best)%R) /\ (j = i -> t = best)) as Hall.
  { intros i best _ Hd H1 H2 H3 j d' Hj. apply lookup_app_Some in Hj as [Hj|[Hge Hj]]; [by apply Hd|]. apply list_lookup_singleton_Some in Hj as [E <-].
    assert (j = length ds) as -> by lia. by exists lp. }
  rewrite app_length. cbn [length]. destruct Hi as [[-> [= -> ->]]|(i & best & Hlt & Hb & -> & Hd)].
  - injection H as <-. cbn [fst snd length]. split; [cbn; lia|]. right. exists 0, lp. split_and!; [cbn; lia|done|done|]. apply Hall; [done|intros j d' Hj; done|lra|cbn; lia|done].
  - destruct (Rlt_dec best lp) as [Hbl|Hbl]; injection H as <-; cbn [fst snd]; (split; [lia|]); right.
    + exists (length ds), lp. split_and!; [lia|done|done|]. apply Hall; [done| |lra|lia|done]. intros j d' Hj. destruct (Hd j d' Hj) as (t & Ht & Hle & _).
      pose proof (lookup_lt_Some _ _ _ Hj). exists t. split_and!; [done|lra|intros _; lra|lia].
    + exists i, best. split_and!; [lia|done|done|]. apply Hall; [lia|done|lra|lia|lia].
Qed.
