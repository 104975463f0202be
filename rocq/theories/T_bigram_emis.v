(** C68, C69: what the string emission [bigram] learns from an observation. *)
From Coq Require Import ZArith Reals Ascii String Lra.
From stdpp Require Import list gmap sorting.
From Coq Require Import Lia.
From Verif Require Import M_base M_text M_math M_dist M_distributions M_align M_bigram_emis
  S_math S_align S_bigram_emis P_base P_math P_align T_align P_bigram_emis P_bigram_costs P_bigram_reach P_bigram_totals P_bigram_shares P_bigram_undo.
Local Open Scope nat_scope.

(** C68: a new emission has the tables of the right size, all hyperparameters 1, no
    observations, and is biased towards inserting nothing and keeping every character. *)
Theorem C68_new : exists b, bs_new = Ok b /\ bs_shape b /\ bs_N b = 0%R /\
  Forall (eq 1%R) (hyperparameters b) /\
  (forall c d, choice_ok c -> choice_ok d -> inserted b c d = if decide (d = None) then 9216%R else 0%R) /\
  (forall c d, printable c -> choice_ok d -> replaced b c d = if decide (d = Some c) then 9216%R else 0%R).
Proof.
  destruct bs_new_ok as (b & Hb & Hs & _ & HN & Ha & Hi & Hr). exists b. split_and!; [done|done|done| |done|done].
  rewrite Ha, blank_alphas. apply Forall_replicate. done.
Qed.
Print Assumptions C68_new.

(** C68: every pair of printable strings can be incorporated, with any weight, whichever of
    the cheapest alignments the heap gives.  The weight is divided among one or two different
    alignments of the two strings (one only if there is no other); each alignment counts for
    exactly the choices that one reads off it, and nothing else changes. *)
Theorem C68_incorporate : forall pick b x w, valid_pick pick -> bs_shape b -> printables x.1 -> printables x.2 ->
  exists b' parts, bs_incorporate pick b x w = Ok b' /\ bs_shape b' /\
    hyperparameters b' = hyperparameters b /\ bs_N b' = (bs_N b + w)%R /\
    1 <= length parts <= 2 /\ NoDup (map fst parts) /\
    (forall q, aligns q x.1 x.2 -> q ∈ map fst parts \/ length parts = 2) /\
    (forall a, a ∈ parts -> aligns a.1 x.1 x.2 /\ (0 < a.2 <= 1)%R) /\
    Rsum (map snd parts) = 1%R /\
    (forall c d, choice_ok c -> choice_ok d ->
       inserted b' c d = inserted b c d + w * Rsum (map (fun a => a.2 * times (c, d) (insertion_choices None a.1)) parts))%R /\
    (forall c d, printable c -> choice_ok d ->
       replaced b' c d = replaced b c d + w * Rsum (map (fun a => a.2 * times (c, d) (replacements a.1)) parts))%R.
Proof.
  intros pick b x w Hp Hb H1 H2. destruct (incorporate_run pick b x w Hp Hb H1 H2) as (b' & found & Hb' & Hrun & Hne & Hf & HN & [G1 G2 G3 G4]).
  destruct (topk_all pick (bs_cost b) 2 x.1 x.2 Hp) as (found' & Hrun' & Hall). rewrite Hrun in Hrun'. injection Hrun' as <-.
  destruct (topk_run pick (bs_cost b) 2 x.1 x.2 Hp) as (hs & fs & xs & ds & V & Hrun' & Hi & Hle & _). rewrite Hrun in Hrun'. injection Hrun' as ->.
  destruct (inv_found_aligns _ _ _ _ _ _ _ _ Hi) as [Hnd _].
  assert (map fst (weighted (map (mk (bs_cost b)) fs)) = fs) as Efs by (unfold weighted; rewrite map_map; cbn [fst]; exact (map_pieces _ _)).
  assert (length (weighted (map (mk (bs_cost b)) fs)) = length fs) as El by (unfold weighted; by rewrite !map_length).
  exists b', (weighted (map (mk (bs_cost b)) fs)). rewrite Efs, El. split_and!; try done.
  - destruct fs; [done|cbn; lia].
  - intros q Hq. specialize (Hall q Hq). by rewrite map_pieces, map_length in Hall.
  - intros a Ha. split; [|by eapply weighted_share].
    apply elem_of_list_fmap in Ha as (a' & -> & Ha'). cbn [fst]. by apply Hf.
  - by apply weighted_sum.
Qed.
Print Assumptions C68_incorporate.

(** C68: whatever the alignments, the recorded weight is that of the two strings: every
    character of the clean string is replaced or deleted once, preceded by one "insert
    nothing", and every character of the dirty string is inserted or a replacement once. *)
Theorem C68_totals : forall pick b x w b', valid_pick pick -> bs_shape b -> printables x.1 -> printables x.2 ->
  bs_incorporate pick b x w = Ok b' ->
  (forall c, printable c -> Rsum (map (replaced b' c) choices) = Rsum (map (replaced b c) choices) + w * times c x.1)%R /\
  Rsum (map (fun o => inserted b' o None) choices) = (Rsum (map (fun o => inserted b o None) choices) + w * INR (length x.1))%R /\
  (forall c, printable c ->
    Rsum (map (fun o => inserted b' o (Some c)) choices) + Rsum (map (fun k => replaced b' k (Some c)) alphabet) =
    Rsum (map (fun o => inserted b o (Some c)) choices) + Rsum (map (fun k => replaced b k (Some c)) alphabet) + w * times c x.2)%R.
Proof. exact incorporate_totals. Qed.
Print Assumptions C68_totals.

(** C68: resampling the hyperparameters changes them only; they stay positive. *)
Theorem C68_hyperparameters : forall lg b r b' r', bs_shape b -> bs_transition lg b r = Ok (b', r') ->
  bs_shape b' /\ bs_N b' = bs_N b /\ (forall c d, inserted b' c d = inserted b c d) /\ (forall c d, replaced b' c d = replaced b c d).
Proof.
  intros lg b r b' r' [Hi Hs] H. destruct (transition_same _ _ _ _ _ H) as (Si & Ss & HN).
  destruct (same_tables _ _ Si) as (A1 & _ & A3). destruct (same_tables _ _ Ss) as (B1 & _ & B3).
  split_and!; [split; auto|done| |]; intros c d; [apply A3|apply B3].
Qed.
Print Assumptions C68_hyperparameters.

(** C68: an emission that was only given observations of positive weight: the number of
    observations is the sum of their weights, no entry is negative, and the weight recorded
    for a clean character is what the constructor gave it plus its occurrences in the clean
    strings. *)
Theorem C68_history : forall lg pick b history, valid_pick pick -> bs_reached lg pick b history ->
  bs_shape b /\ bs_N b = Rsum (map snd history) /\
  (forall c d, (0 <= inserted b c d)%R) /\ (forall c d, (0 <= replaced b c d)%R) /\
  (forall c, printable c -> Rsum (map (replaced b c) choices) = 9216 + Rsum (map (fun o => o.2 * times c o.1.1) history))%R.
Proof.
  intros lg pick b history Hp H. destruct (reached_ok lg pick b history Hp H) as [Hs [P1 P2]].
  split; [done|]. cut (bs_N b = Rsum (map snd history) /\
    (forall c, printable c -> Rsum (map (replaced b c) choices) = 9216 + Rsum (map (fun o => o.2 * times c o.1.1) history))%R).
  { intros [HN Ht]. split_and!; [done| | |done]; intros c d; by apply entry_pos. }
  clear Hs P1 P2. induction H as [b Hb|b l x w b' Hr [IHN IH] H1 H2 Hw Hb'|b l r b' r' Hr [IHN IH] Hb'].
  - destruct C68_new as (b0 & Hb0 & _ & HN & _ & _ & Hrep). rewrite Hb in Hb0. injection Hb0 as <-. clear Hb.
    split; [exact HN|]. intros c Hc. cbn [map]. unfold Rsum at 2. cbn [foldr].
    rewrite (sum_ext _ (fun d => 9216 * (if decide (d = Some c) then 1 else 0))%R).
    2:{ intros d Hd. rewrite Hrep by (try done; by apply choices_iff). destruct (decide (d = Some c)); lra. }
    rewrite sum_scale, (sum_one (fun d => d = Some c) (Some c) choices); [lra|apply choices_nodup|by apply choices_iff|done].
  - destruct (reached_ok lg pick b l Hp Hr) as [Hs _]. destruct (C68_totals pick b x w b' Hp Hs H1 H2 Hb') as [Ht _].
    destruct (incorporate_run pick b x w Hp Hs H1 H2) as (b'' & found & Hb'' & _ & _ & _ & HN & _). rewrite Hb' in Hb''. injection Hb'' as <-.
    rewrite map_app. cbn [map snd]. assert (forall y, Rsum [y] = y) as E1 by (intros y; unfold Rsum; cbn [foldr]; lra).
    split; [by rewrite Rsum_app, E1, HN, IHN|].
    intros c Hc. rewrite map_app, Rsum_app. cbn [map]. rewrite E1. rewrite (Ht c Hc), (IH c Hc). cbn [fst snd]. lra.
  - destruct (transition_same _ _ _ _ _ Hb') as (_ & Ss & HN). split; [by rewrite HN|].
    intros c Hc. rewrite <- (IH c Hc). f_equal. apply map_ext. intros d. apply (same_tables _ _ Ss).
Qed.
Print Assumptions C68_history.

(** The theorems of C68 apply: a history of two observations, after the hyperparameters of
    the emission may have been resampled. *)
Example C68_example : forall lg, exists b b1 b2, bs_new = Ok b /\
  bs_incorporate first_least b (txt "hello", txt "helo") 1 = Ok b1 /\ bs_incorporate first_least b1 (txt "lab", txt "lamb") (1 / 2) = Ok b2 /\
  bs_reached lg first_least b2 [(txt "hello", txt "helo", 1%R); (txt "lab", txt "lamb", (1 / 2)%R)] /\
  bs_N b2 = (3 / 2)%R /\ Rsum (map (replaced b2 "l") choices) = (9216 + 5 / 2)%R.
Proof.
  intros lg. destruct C68_new as (b & Hb & Hs & _). pose proof (least_valid _ first_least_ok) as Hp.
  assert (forall s, forallb (fun c => (32 <=? char_val c)%Z && (char_val c <=? 126)%Z) s = true -> printables s) as Hpr.
  { intros s H. apply Forall_forall. intros c Hc. apply elem_of_list_In in Hc. rewrite forallb_forall in H. specialize (H c Hc). unfold printable. lia. }
  destruct (C68_incorporate first_least b (txt "hello", txt "helo") 1 Hp Hs) as (b1 & _ & H1 & Hs1 & _); [by apply Hpr|by apply Hpr|].
  destruct (C68_incorporate first_least b1 (txt "lab", txt "lamb") (1 / 2) Hp Hs1) as (b2 & _ & H2 & _); [by apply Hpr|by apply Hpr|].
  exists b, b1, b2. split; [exact Hb|]. split; [exact H1|]. split; [exact H2|].
  assert (bs_reached lg first_least b2 [(txt "hello", txt "helo", 1%R); (txt "lab", txt "lamb", (1 / 2)%R)]) as Hr.
  { apply (BS_inc lg first_least b1 [(txt "hello", txt "helo", 1%R)] (txt "lab", txt "lamb") (1 / 2)%R b2); [|by apply Hpr|by apply Hpr|lra|exact H2].
    apply (BS_inc lg first_least b [] (txt "hello", txt "helo") 1%R b1); [by apply BS_new|by apply Hpr|by apply Hpr|lra|exact H1]. }
  split; [exact Hr|]. destruct (C68_history lg first_least b2 _ Hp Hr) as (_ & HN & _ & _ & Ht). clear Hb H1 H2 Hr. rewrite HN, (Ht "l"%char) by by vm_compute.
  unfold Rsum. cbn [map foldr fst snd]. calc_times. split; lra.
Qed.

(** C69: for every emission that was only given observations of positive weight.  The
    alignments among which an observation is divided are the two that the search takes for
    the most likely ones, the more likely one first; but the share of an alignment is
    proportional to the inverse of its probability, so the less likely one gets the greater
    share. *)
Theorem C69_shares : forall lg pick b history x w, least_pick pick -> bs_reached lg pick b history -> printables x.1 -> printables x.2 ->
  exists b' parts, bs_incorporate pick b x w = Ok b' /\ 1 <= length parts <= 2 /\ NoDup (map fst parts) /\
    (forall a, a ∈ parts -> aligns a.1 x.1 x.2 /\ (0 < p_searched b a.1)%R) /\
    StronglySorted (fun a a' => p_searched b a'.1 <= p_searched b a.1)%R parts /\
    (forall q, aligns q x.1 x.2 -> q ∉ map fst parts -> length parts = 2 /\ forall a, a ∈ parts -> (p_searched b q <= p_searched b a.1)%R) /\
    (forall a, a ∈ parts -> a.2 = / p_searched b a.1 / Rsum (map (fun a => / p_searched b a.1) parts))%R /\
    (forall a a', a ∈ parts -> a' ∈ parts -> (p_searched b a.1 < p_searched b a'.1)%R -> (a'.2 < a.2)%R) /\
    (forall c d, choice_ok c -> choice_ok d ->
       inserted b' c d = inserted b c d + w * Rsum (map (fun a => a.2 * times (c, d) (insertion_choices None a.1)) parts))%R /\
    (forall c d, printable c -> choice_ok d ->
       replaced b' c d = replaced b c d + w * Rsum (map (fun a => a.2 * times (c, d) (replacements a.1)) parts))%R.
Proof.
  intros lg pick b history x w Hl Hr H1 H2. destruct (reached_ok lg pick b history (least_valid _ Hl) Hr) as [Hs Hpos].
  destruct (shares_run pick b x w Hl Hs Hpos H1 H2) as (b' & found & Hb' & Hlen & Hnd & Hal & Hsort & Hout & HN & [_ _ G3 G4]).
  set (parts := map (fun q => (q, / p_searched b q / odds b found)%R) found).
  assert (map fst parts = found) as Ef by (unfold parts; rewrite map_map; apply map_id).
  assert (length parts = length found) as El by (unfold parts; by rewrite map_length).
  exists b', parts. rewrite Ef, El. split; [done|]. split; [done|]. split; [done|].
  split; [|split; [|split; [|split; [|split; [|split]]]]].
  - intros a (q & -> & Hq)%elem_of_list_fmap. cbn [fst]. split; [by apply Hal|]. eapply searched_cost; [done|done|]. by eapply aligns_known; [apply Hal|..].
  - unfold parts. generalize (odds b found). intros t. clear -Hsort. induction Hsort as [|q l Hsl IH Hall]; cbn [map]; constructor; [done|].
    apply Forall_forall. intros a (q' & -> & Hq')%elem_of_list_fmap. cbn [fst]. rewrite Forall_forall in Hall. by apply Hall.
  - intros q Hq Hnot. destruct (Hout q Hq Hnot) as [E Hbest]. split; [done|]. intros a (q' & -> & Hq')%elem_of_list_fmap. by apply Hbest.
  - assert (Rsum (map (fun a => / p_searched b a.1) parts) = odds b found)%R as -> by (unfold parts, odds; by rewrite map_map).
    intros a (q & -> & Hq)%elem_of_list_fmap. done.
  - intros a a' (q & -> & Hq)%elem_of_list_fmap (q' & -> & Hq')%elem_of_list_fmap. cbn [fst snd]. intros Hlt.
    assert (forall q, q ∈ found -> (0 < p_searched b q)%R) as B by (intros q0 H0; eapply searched_cost; [done|done|by eapply aligns_known; [apply Hal|..]]).
    apply Rmult_lt_compat_r; [|apply Rinv_lt_contravar; [apply Rmult_lt_0_compat; by apply B|done]].
    apply Rinv_0_lt_compat. apply Rlt_le_trans with (/ p_searched b q)%R; [by apply Rinv_0_lt_compat, B|].
    apply Rsum_in_le; [|apply elem_of_list_fmap; by exists q]. apply Forall_forall. intros y (q0 & -> & H0)%elem_of_list_fmap. left. by apply Rinv_0_lt_compat, B.
  - intros c d Hc Hd. rewrite G3 by done. unfold parts. rewrite map_map. done.
  - intros c d Hc Hd. rewrite G4 by done. unfold parts. rewrite map_map. done.
Qed.
Print Assumptions C69_shares.

(** C69: the likelier alignment does not get the greater share.  A new emission takes the
    substitution of "b" for "a" to be 9312 times as likely as a deletion and an insertion;
    told that "a" became "b", it records the substitution with weight 1/9313 and the deletion
    with weight 9312/9313. *)
Theorem C69_likelier_refuted : forall pick, least_pick pick -> exists b b', bs_new = Ok b /\
  bs_incorporate pick b (txt "a", txt "b") 1 = Ok b' /\
  (p_alignment b [Sub "a" "b"] = 9312 * p_alignment b [Del "a"; Ins "b"])%R /\
  (p_alignment b [Sub "a" "b"] = 9312 * p_alignment b [Ins "b"; Del "a"])%R /\
  replaced b' "a" (Some "b"%char) = (1 / 9313)%R /\ replaced b' "a" None = (9312 / 9313)%R.
Proof.
  intros pick Hl. destruct C68_new as (b & Hb & _). destruct (fresh_undo pick b Hl Hb) as (b' & _ & H1 & V1 & V2 & _).
  exists b, b'. split; [exact Hb|]. split; [exact H1|]. clear H1. destruct (fresh_plain b Hb) as (Hpl & _ & _ & Hi & Hr & Si & Sr). clear Hb.
  assert (printable "a" /\ printable "b") as [Ka Kb] by by vm_compute.
  split; [|split; [|by split]]; unfold p_alignment, replacements, Rprod;
    cbn [insertion_choices replacement map concat foldr app fst snd];
    rewrite !plain_insert, !plain_replace by done; rewrite !Si, !Sr by done; rewrite !Hi, !Hr by done; decides; lra.
Qed.
Print Assumptions C69_likelier_refuted.

(** C69: nor does the search work with the probabilities of the model that the header
    describes: it does not look up what is inserted before a character in the context of the
    character before it.  The cost of the alignment that it returns is not the negative
    logarithm of its probability. *)
Theorem C69_context_refuted : forall lg pick, least_pick pick -> exists b found, bs_reached lg pick b [(txt "a", [], 1%R)] /\
  bs_alignments pick b 2 (txt "a") [] = Ok [found] /\ a_pieces found = [Del "a"] /\
  (0 < p_alignment b [Del "a"])%R /\ a_cost found <> (- ln (p_alignment b [Del "a"]))%R.
Proof.
  intros lg pick Hl. pose proof (least_valid _ Hl) as Hp.
  assert (printable "a") as Ka by by vm_compute. assert (printables (txt "a")) as Pa by (apply List.Forall_cons; [done|apply List.Forall_nil]). assert (printables []) as P0 by apply List.Forall_nil.
  assert (0 < 1)%R as H01 by lra. destruct C68_new as (e & He & Hs & _).
  destruct (fresh_plain e He) as (Hpl & Hpos & _ & Hi & Hr & Si & Sr).
  destruct (C68_incorporate pick e (txt "a", []) 1 Hp Hs Pa P0) as (b & parts & Hb & Hs' & Ha & _ & Hlen & Hnd & _ & Hal & Hsum & G1 & G2).
  pose proof (BS_inc lg pick e [] (txt "a", []) 1%R b (BS_new _ _ _ He) Pa P0 H01 Hb) as Hreach. clear He.
  assert (parts = [([Del "a"], 1%R)]) as ->.
  { assert (forall a, a ∈ parts -> a.1 = [Del "a"%char]) as Hone by (intros a Hin; apply (aligns_nil_r _ (txt "a")), (Hal a Hin)).
    destruct parts as [|a [|a' l]]; [cbn in Hlen; lia| |].
    - unfold Rsum in Hsum. cbn [map foldr] in Hsum. specialize (Hone a ltac:(by left)). destruct a as [q s]. cbn [fst snd] in *. subst q. f_equal. f_equal. lra.
    - exfalso. cbn [map] in Hnd. apply NoDup_cons in Hnd as [Hnd _]. apply Hnd. rewrite (Hone a ltac:(by left)), (Hone a' ltac:(right; by left)). left. }
  unfold Rsum in G1, G2. cbn [map foldr fst snd] in G1, G2.
  assert (plain b) as Hplb by (split; [done|rewrite Ha; apply Hpl]).
  destruct (reached_ok lg pick b _ Hp Hreach) as [_ Hposb].
  assert (Rsum (map (inserted b None) choices) = 9217)%R as T1.
  { rewrite (sum_ext _ (fun d => inserted e None d + times (None, d) (insertion_choices None [Del "a"%char]))%R).
    2:{ intros d Hd. apply choices_iff in Hd. rewrite G1 by done. lra. }
    rewrite sum_plus, Si, sum_times by (try done; by repeat (apply List.Forall_cons || apply List.Forall_nil)). calc_times. lra. }
  assert (Rsum (map (inserted b (Some "a"%char)) choices) = 9216)%R as T2.
  { rewrite (sum_ext _ (fun d => inserted e (Some "a"%char) d + times (Some "a"%char, d) (insertion_choices None [Del "a"%char]))%R).
    2:{ intros d Hd. apply choices_iff in Hd. rewrite G1 by done. lra. }
    rewrite sum_plus, Si, sum_times by (try done; by repeat (apply List.Forall_cons || apply List.Forall_nil)). calc_times. lra. }
  assert (p_insert b None None = 9218 / 9313)%R as I1.
  { rewrite plain_insert, T1, G1, Hi by done. decides. calc_times. lra. }
  assert (p_insert b (Some "a"%char) None = 9217 / 9312)%R as I2.
  { rewrite plain_insert, T2, G1, Hi by done. decides. calc_times. lra. }
  destruct (p_replace_ok b "a" None Hs' Hposb Ka ltac:(done)) as [_ [Bk _]].
  assert (p_alignment b [Del "a"%char] = 9218 / 9313 * p_replace b "a" None)%R as Ep.
  { unfold p_alignment, replacements, Rprod. cbn [insertion_choices replacement map concat foldr app fst snd]. rewrite I1. lra. }
  assert (p_searched b [Del "a"%char] = 9217 / 9312 * p_replace b "a" None)%R as Eq.
  { unfold p_searched, replacements, Rprod. cbn [search_choices replacement map concat foldr app fst snd left_of head]. rewrite I2. lra. }
  destruct (C34_spells pick (bs_cost b) 2 (txt "a") [] Hp) as (found & Hrun & Hf & Hndf & _ & Hall).
  assert (forall a, a ∈ found -> a_pieces a = [Del "a"%char]) as Hone by (intros a Hin; apply (aligns_nil_r _ (txt "a")), (Hf a Hin)).
  destruct found as [|a [|a' l]].
  - exfalso. destruct (Hall [Del "a"%char]) as [Hin|Hin]; [by repeat split; repeat constructor|by apply elem_of_nil in Hin|done].
  - exists b, a. split; [exact Hreach|]. clear Hreach Hb. split; [by rewrite alignments_eq|]. split; [apply Hone; by left|].
    split; [rewrite Ep; apply Rmult_lt_0_compat; lra|].
    destruct (Hf a ltac:(by left)) as (_ & -> & _). rewrite (Hone a ltac:(by left)).
    destruct (searched_cost b [Del "a"%char] Hs' Hposb) as [-> B]; [repeat (apply List.Forall_cons || apply List.Forall_nil); by split|].
    intros E. assert (ln (p_searched b [Del "a"%char]) = ln (p_alignment b [Del "a"%char])) as E' by lra.
    apply ln_inv in E'; [|done|rewrite Ep; apply Rmult_lt_0_compat; lra]. rewrite Ep, Eq in E'.
    assert (9217 / 9312 <> 9218 / 9313)%R as Hne by lra. apply Hne. apply Rmult_eq_reg_r with (p_replace b "a" None); [exact E'|lra].
  - exfalso. cbn [map] in Hndf. apply NoDup_cons in Hndf as [Hndf _]. apply Hndf. rewrite (Hone a ltac:(by left)), (Hone a' ltac:(right; by left)). left.
Qed.
Print Assumptions C69_context_refuted.

(** C69: unincorporating what was incorporated last always succeeds; it restores the number
    of observations, the hyperparameters and the totals of C68. *)
Theorem C69_undo_totals : forall pick b x, valid_pick pick -> bs_shape b -> printables x.1 -> printables x.2 ->
  exists b1 b2, bs_incorporate pick b x 1 = Ok b1 /\ bs_unincorporate pick b1 x = Ok b2 /\ bs_shape b2 /\
    bs_N b2 = bs_N b /\ hyperparameters b2 = hyperparameters b /\
    (forall c, printable c -> Rsum (map (replaced b2 c) choices) = Rsum (map (replaced b c) choices)) /\
    Rsum (map (fun o => inserted b2 o None) choices) = Rsum (map (fun o => inserted b o None) choices) /\
    (forall c, printable c ->
      Rsum (map (fun o => inserted b2 o (Some c)) choices) + Rsum (map (fun k => replaced b2 k (Some c)) alphabet) =
      Rsum (map (fun o => inserted b o (Some c)) choices) + Rsum (map (fun k => replaced b k (Some c)) alphabet))%R.
Proof.
  intros pick b x Hp Hs H1 H2. destruct (C68_incorporate pick b x 1 Hp Hs H1 H2) as (b1 & _ & E1 & S1 & A1 & N1 & _).
  destruct (C68_incorporate pick b1 x (-1) Hp S1 H1 H2) as (b2 & _ & E2 & S2 & A2 & N2 & _).
  destruct (C68_totals pick b x 1 b1 Hp Hs H1 H2 E1) as (T1 & T2 & T3). destruct (C68_totals pick b1 x (-1) b2 Hp S1 H1 H2 E2) as (U1 & U2 & U3).
  exists b1, b2. split_and!; [done|done|exact S2|rewrite N2, N1; lra|by rewrite A2, A1| | |].
  - intros c Hc. rewrite U1, T1 by done. lra.
  - rewrite U2, T2. lra.
  - intros c Hc. rewrite U3, T3 by done. lra.
Qed.
Print Assumptions C69_undo_totals.

(** C69: when one of the strings is empty, all tables are as before. *)
Theorem C69_undo_empty : forall pick b x, valid_pick pick -> bs_shape b -> printables x.1 -> printables x.2 -> x.1 = [] \/ x.2 = [] ->
  exists b1 b2, bs_incorporate pick b x 1 = Ok b1 /\ bs_unincorporate pick b1 x = Ok b2 /\
    (forall c d, choice_ok c -> choice_ok d -> inserted b2 c d = inserted b c d) /\
    (forall c d, printable c -> choice_ok d -> replaced b2 c d = replaced b c d).
Proof.
  intros pick b x Hp Hs H1 H2 He. destruct (C68_incorporate pick b x 1 Hp Hs H1 H2) as (b1 & parts & E1 & S1 & _ & _ & L1 & D1 & _ & P1 & Q1 & I1 & R1).
  destruct (C68_incorporate pick b1 x (-1) Hp S1 H1 H2) as (b2 & parts' & E2 & _ & _ & _ & L2 & D2 & _ & P2 & Q2 & I2 & R2).
  destruct (one_alignment x He) as [q Hq].
  assert (forall l : list (list piece * R), 1 <= length l <= 2 -> NoDup (map fst l) -> (forall a, a ∈ l -> aligns a.1 x.1 x.2 /\ (0 < a.2 <= 1)%R) -> Rsum (map snd l) = 1%R -> l = [(q, 1%R)]) as Hl.
  { intros l Ll Dl Pl Ql. assert (forall a, a ∈ l -> a.1 = q) as Hone by (intros a Ha; apply Hq, (Pl a Ha)).
    destruct l as [|a [|a' l]]; [cbn in Ll; lia| |].
    - unfold Rsum in Ql. cbn [map foldr] in Ql. specialize (Hone a ltac:(by left)). destruct a as [q' s]. cbn [fst snd] in *. subst q'. f_equal. f_equal. lra.
    - exfalso. cbn [map] in Dl. apply NoDup_cons in Dl as [Dl _]. apply Dl. rewrite (Hone a ltac:(by left)), (Hone a' ltac:(right; by left)). left. }
  apply Hl in Q1 as ->; [|done|done|done]. apply Hl in Q2 as ->; [|done|done|done].
  exists b1, b2. split_and!; [done|done| |]; intros c d Hc Hd; [rewrite I2, I1 by done|rewrite R2, R1 by done]; lra.
Qed.
Print Assumptions C69_undo_empty.

(** C69: in general they are not; the emission that has learnt and unlearnt one observation
    can be left with a negative entry. *)
Theorem C69_undo_refuted : forall pick, least_pick pick -> exists b b1 b2, bs_new = Ok b /\
  bs_incorporate pick b (txt "a", txt "b") 1 = Ok b1 /\ bs_unincorporate pick b1 (txt "a", txt "b") = Ok b2 /\
  replaced b "a" (Some "b"%char) = 0%R /\ (replaced b2 "a" (Some "b"%char) < - (1 / 10000))%R.
Proof.
  intros pick Hl. destruct C68_new as (b & Hb & _). destruct (fresh_undo pick b Hl Hb) as (b1 & b2 & H1 & _ & _ & H2 & Hneg).
  exists b, b1, b2. split; [exact Hb|]. split; [exact H1|]. split; [exact H2|]. split; [|exact Hneg].
  destruct (fresh_plain b Hb) as (_ & _ & _ & _ & Hr & _). clear Hb H1 H2. rewrite Hr by by vm_compute. decides. done.
Qed.
Print Assumptions C69_undo_refuted.

(** C68: strings with other characters are not for this emission: a character below 31 or
    above 126 in the clean string is looked up outside the tables. *)
Theorem C68_unprintable_refuted : forall pick b w c s s2, bs_shape b -> (char_val c < 31 \/ 126 < char_val c)%Z ->
  bs_incorporate pick b (c :: s, s2) w = UB.
Proof.
  intros pick b w c s s2 Hb Hc. unfold bs_incorporate, bs_alignments. cbn [fst foldM obind]. unfold bs_knows at 1. cbn [bs_sub].
  assert (bs_at (bs_sub b) (bs_index c) = UB) as ->; [|done]. unfold bs_at. destruct (bool_decide_reflect (0 <= bs_index c)%Z) as [Hk|Hk]; [|done].
  rewrite lookup_ge_None_2; [done|]. destruct Hb as [_ [-> _]]. unfold bs_index, bs_contexts in *. lia.
Qed.
Print Assumptions C68_unprintable_refuted.
