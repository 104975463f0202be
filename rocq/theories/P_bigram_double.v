(** Concrete votes of the string emission [bigram]. *)
From Coq Require Import ZArith Reals Ascii String Lra.
From stdpp Require Import list gmap sorting.
From Coq Require Import Lia.
From Verif Require Import M_base M_text M_math M_dist M_distributions M_align M_bigram_emis
  S_math S_align S_bigram_emis P_base P_math P_align T_align P_bigram_emis P_bigram_costs P_bigram_reach P_bigram_totals P_bigram_shares P_bigram_undo T_bigram_emis P_bigram_vote P_bigram_propose.
Local Open Scope nat_scope.

(** ** Observations with only one alignment *)
Lemma single_inc pick b x w q : valid_pick pick -> bs_shape b -> printables x.1 -> printables x.2 -> (forall q', aligns q' x.1 x.2 -> q' = q) ->
  exists b', bs_incorporate pick b x w = Ok b' /\ bs_shape b' /\ hyperparameters b' = hyperparameters b /\
    (forall c d, choice_ok c -> choice_ok d -> inserted b' c d = inserted b c d + w * times (c, d) (insertion_choices None q))%R /\
    (forall c d, printable c -> choice_ok d -> replaced b' c d = replaced b c d + w * times (c, d) (replacements q))%R /\
    (forall c, choice_ok c -> Rsum (map (inserted b' c) choices) = Rsum (map (inserted b c) choices) + w * times c (map fst (insertion_choices None q)))%R /\
    (forall c, printable c -> Rsum (map (replaced b' c) choices) = Rsum (map (replaced b c) choices) + w * times c (map fst (replacements q)))%R.
Proof.
  intros Hp Hs H1 H2 Hq. destruct (C68_incorporate pick b x w Hp Hs H1 H2) as (b' & parts & E & S' & A & _ & Ll & Dl & _ & Pl & Ql & I1 & R1).
  assert (parts = [(q, 1%R)]) as ->.
  { assert (forall a, a ∈ parts -> a.1 = q) as Hone by (intros a Ha; apply Hq, (Pl a Ha)).
    destruct parts as [|a [|a' l]]; [cbn in Ll; lia| |].
    - unfold Rsum in Ql. cbn [map foldr] in Ql. specialize (Hone a ltac:(by left)). destruct a as [q' s]. cbn [fst snd] in *. subst q'. f_equal. f_equal. lra.
    - exfalso. cbn [map] in Dl. apply NoDup_cons in Dl as [Dl _]. apply Dl. rewrite (Hone a ltac:(by left)), (Hone a' ltac:(right; by left)). left. }
  assert (Forall known q) as Hkn by (eapply aligns_known; [apply (Pl (q, 1%R)); by left|done|done]).
  unfold Rsum in I1, R1. cbn [map foldr fst snd] in I1, R1.
  assert (forall c d, choice_ok c -> choice_ok d -> inserted b' c d = inserted b c d + w * times (c, d) (insertion_choices None q))%R as I2 by (intros c d Hc Hd; rewrite I1 by done; lra).
  assert (forall c d, printable c -> choice_ok d -> replaced b' c d = replaced b c d + w * times (c, d) (replacements q))%R as R2 by (intros c d Hc Hd; rewrite R1 by done; lra).
  exists b'. split_and!; [done|done|done|done|done| |].
  - intros c Hc. rewrite (sum_ext _ (fun d => inserted b c d + w * times (c, d) (insertion_choices None q))%R) by (intros d Hd; apply choices_iff in Hd; by apply I2).
    rewrite sum_plus, sum_scale, sum_times; [done|]. assert (choice_ok None) as Hn by done. revert Hn. clear -Hkn. generalize (@None ascii).
    induction q as [|p q IH]; intros ctx Hx; [apply List.Forall_nil|]. apply Forall_cons in Hkn as [Hk Hkn]. rewrite insertion_choices_cons.
    destruct (known_next ctx p Hx Hk). apply List.Forall_cons; [done|by apply IH].
  - intros c Hc. rewrite (sum_ext _ (fun d => replaced b c d + w * times (c, d) (replacements q))%R) by (intros d Hd; apply choices_iff in Hd; by apply R2).
    rewrite sum_plus, sum_scale, sum_times; [done|]. clear -Hkn. induction q as [|p q IH]; [apply List.Forall_nil|]. apply Forall_cons in Hkn as [[Kl Kr] Hkn].
    unfold replacements. cbn [map concat]. apply Forall_app. split; [|by apply IH].
    destruct p as [c|c|c d|c]; cbn [replacement]; repeat (apply List.Forall_cons || apply List.Forall_nil); cbn [snd choice_ok]; [done|exact (proj1 (Forall_singleton _ _) Kr)|exact (proj1 (Forall_singleton _ _) Kl)].
Qed.

(** ** The order of the strings *)
Lemma fresh_vote pick e a b : least_pick pick -> bs_new = Ok e -> printable a -> printable b -> a <> b -> bs_propose pick e [[a]; [b]] = Ok [b].
Proof.
  intros Hl He Ka Kb Hab. destruct (fresh_plain e He) as (Hpl & Hpos & _ & Hi & Hr & Si & Sr). clear He.
  assert (printables [a]) as Pa by (apply List.Forall_cons; [done|apply List.Forall_nil]). assert (printables [b]) as Pb by (apply List.Forall_cons; [done|apply List.Forall_nil]).
  unfold bs_propose. cbn [map length bs_tournament bs_round fst snd].
  destruct (vote_run pick e [a] [b] 1 1 Hl (proj1 Hpl) Hpos Pa Pb ltac:(lra) ltac:(lra)) as (q & -> & Hq & Hbest). cbn [obind bs_tournament fst snd].
  assert (p_replace e a (Some b) = 1 / 9312 /\ p_replace e b (Some a) = 1 / 9312 /\ p_replace e a None = 1 / 9312)%R as (R1 & R2 & R3).
  { rewrite !plain_replace, !Sr, !Hr by done. rewrite !decide_False by congruence. split_and!; lra. }
  assert (forall c d, choice_ok c -> printable d -> p_insert e c (Some d) = 1 / 9312)%R as I1.
  { intros c d Hc Hd. rewrite plain_insert, Si, Hi by done. rewrite decide_False by done. lra. }
  assert (p_insert e (Some a) None = 9217 / 9312)%R as I2.
  { rewrite plain_insert, Si, Hi by done. rewrite decide_True by done. lra. }
  destruct (pair_all a b Hab) as (A1 & _ & _). specialize (Hbest _ A1).
  assert (q = pS a b) as ->.
  { destruct (pair_aligns a b Hab q Hq) as [->|[->| ->]]; [done| |]; exfalso; revert Hbest; unfold p_searched, pS, pDI, pID, Rprod, replacements;
      cbn [search_choices replacement map concat foldr app fst snd left_of head]; rewrite ?R1, ?R3, ?I2, ?I1 by done; lra. }
  unfold pS. cbn [elected]. rewrite R1, R2. destruct (Rlt_dec _ _) as [Hlt|_]; [lra|done].
Qed.

(** ** Two equal strings *)
Local Definition c_a : ascii := "a".
Lemma double_aligns q : aligns q [c_a] [c_a] -> q = [Mat c_a] \/ q = [Del c_a; Ins c_a] \/ q = [Ins c_a; Del c_a].
Proof.
  intros (H1 & H2 & H3). destruct q as [|p q]; [done|]. unfold lefts, rights in H1, H2. cbn [map concat] in H1, H2.
  destruct p as [c|c|c d|c]; cbn [left_of right_of app] in *.
  - injection H1 as -> H1. right; left. assert (aligns q [] [c_a]) as Hq by (split_and!; [done|done|by apply Forall_inv_tail in H3]). apply aligns_nil_l in Hq as ->. done.
  - injection H2 as -> H2. right; right. assert (aligns q [c_a] []) as Hq by (split_and!; [done|done|by apply Forall_inv_tail in H3]). apply aligns_nil_r in Hq as ->. done.
  - injection H1 as -> H1. injection H2 as -> H2. by apply Forall_inv in H3.
  - injection H1 as -> H1. injection H2 as H2. left. assert (aligns q [] []) as Hq by (split_and!; [done|done|by apply Forall_inv_tail in H3]). apply aligns_nil_l in Hq as ->. done.
Qed.
Lemma double pick : least_pick pick -> forall lg, exists b, bs_reached lg pick b [([], txt "a", 100000%R); (txt "a", [], 100000%R)] /\ bs_propose pick b [txt "a"; txt "a"] = Ok (txt "aa").
Proof.
  intros Hl lg. pose proof (least_valid _ Hl) as Hp.
  assert (printable c_a) as Ka by by vm_compute. assert (printables (txt "a")) as Pa by (apply List.Forall_cons; [done|apply List.Forall_nil]). assert (printables []) as P0 by apply List.Forall_nil.
  assert (0 < 100000)%R as H01 by lra. assert (0 < 1)%R as W1 by lra.
  destruct C68_new as (e & He & Hs & _). destruct (fresh_plain e He) as (Hpl & _ & _ & Hi & Hr & Si & Sr). pose proof (BS_new lg pick e He) as R0. clear He.
  destruct (single_inc pick e ([], txt "a") 100000 [Ins c_a] Hp Hs P0 Pa) as (e1 & E1 & S1 & A1 & I1 & Q1 & SI1 & SQ1); [intros q'; apply aligns_nil_l|].
  pose proof (BS_inc lg pick e [] ([], txt "a") 100000%R e1 R0 P0 Pa H01 E1) as R1.
  destruct (single_inc pick e1 (txt "a", []) 100000 [Del c_a] Hp S1 Pa P0) as (b & E2 & S2 & A2 & I2 & Q2 & SI2 & SQ2); [intros q'; apply aligns_nil_r|].
  pose proof (BS_inc lg pick e1 _ (txt "a", []) 100000%R b R1 Pa P0 H01 E2) as R2. cbn [app] in R2. exists b. split; [exact R2|].
  destruct (reached_ok lg pick b _ Hp R2) as [_ Hpos]. clear R0 R1 R2 E1 E2.
  assert (plain b) as Hplb by (split; [done|rewrite A2, A1; apply Hpl]).
  assert (p_insert b None (Some c_a) = 100001 / 209312)%R as V1.
  { rewrite plain_insert, SI2, SI1, Si, I2, I1, Hi by done. decides. calc_times. field. }
  assert (p_insert b (Some c_a) (Some c_a) = 1 / 9312)%R as V2.
  { rewrite plain_insert, SI2, SI1, Si, I2, I1, Hi by done. decides. calc_times. field. }
  assert (p_insert b (Some c_a) None = 9217 / 9312)%R as V3.
  { rewrite plain_insert, SI2, SI1, Si, I2, I1, Hi by done. decides. calc_times. field. }
  assert (p_replace b c_a None = 100001 / 109312)%R as V4.
  { rewrite plain_replace, SQ2, SQ1, Sr, Q2, Q1, Hr by done. decides. calc_times. field. }
  assert (p_replace b c_a (Some c_a) = 9217 / 109312)%R as V5.
  { rewrite plain_replace, SQ2, SQ1, Sr, Q2, Q1, Hr by done. decides. calc_times. field. }
  unfold bs_propose. cbn [map length bs_tournament bs_round fst snd].
  destruct (vote_run pick b (txt "a") (txt "a") 1 1 Hl S2 Hpos Pa Pa W1 W1) as (q & -> & Hq & Hbest). cbn [obind bs_tournament fst snd]. f_equal.
  assert (aligns [Ins c_a; Del c_a] (txt "a") (txt "a")) as Ha by (split_and!; [done|done|repeat (apply List.Forall_cons || apply List.Forall_nil); done]). specialize (Hbest _ Ha).
  assert (q = [Ins c_a; Del c_a]) as ->.
  { destruct (double_aligns q Hq) as [->|[->| ->]]; [| |done]; exfalso; revert Hbest; unfold p_searched, Rprod, replacements;
      cbn [search_choices replacement map concat foldr app fst snd left_of head]; rewrite ?V1, ?V2, ?V3, ?V4, ?V5; lra. }
  cbn [elected]. rewrite V1, V4. destruct (Rlt_dec _ _) as [_|Hn]; [|exfalso; lra]. rewrite V2. destruct (Rlt_dec _ _) as [_|Hn]; [done|exfalso; lra].
Qed.
