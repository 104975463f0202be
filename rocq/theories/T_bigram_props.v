(** C70 (samples of the string emission [bigram] and their probability), C71 (proposals). *)
From Coq Require Import ZArith Reals Ascii String Lra.
From stdpp Require Import list gmap sorting.
From Coq Require Import Lia.
From Verif Require Import M_base M_text M_math M_dist M_distributions M_align M_bigram_emis
  S_math S_crp S_align S_bigram_emis P_base P_math P_align T_align P_bigram_emis P_bigram_costs P_bigram_reach P_bigram_totals P_bigram_shares P_bigram_undo T_bigram_emis P_bigram_vote P_bigram_propose P_bigram_double P_bigram_chain.
Local Open Scope nat_scope.

(** C70: every printable string can be corrupted, whatever the random numbers; the result is
    a printable string. *)
Theorem C70_sample : forall b clean r, bs_shape b -> printables clean -> exists dirty r', bs_corrupt b clean r = Ok (dirty, r') /\ printables dirty.
Proof. intros b clean r. apply corrupt_ok. Qed.
Print Assumptions C70_sample.

(** C70: every printable string can come out. *)
Theorem C70_support : forall b clean dirty, bs_shape b -> printables clean -> printables dirty -> exists r, bs_corrupt b clean r = Ok (dirty, []).
Proof. exact corrupt_any. Qed.
Print Assumptions C70_support.

(** The log probabilities of a sequence of pairs, each given those before it. *)
Inductive predicted (lg : R -> R) (pick : list alignment -> nat) : bse -> list (text * text) -> bse -> R -> Prop :=
| Pr_nil b : predicted lg pick b [] b 0
| Pr_cons b x xs b1 b2 l t : bs_logp lg pick b x = Ok l -> bs_incorporate pick b x 1 = Ok b1 -> predicted lg pick b1 xs b2 t -> predicted lg pick b (x :: xs) b2 (l + t).
(** C70: they exist, and add up to the change of the score. *)
Theorem C70_chain : forall lg pick b xs, valid_pick pick -> bs_shape b -> Forall (fun x => printables x.1 /\ printables x.2) xs ->
  exists b' total, predicted lg pick b xs b' total /\ total = (bs_score lg b' - bs_score lg b)%R.
Proof.
  intros lg pick b xs Hp. revert b. induction xs as [|x xs IH]; intros b Hb Hx; [exists b, 0%R; split; [constructor|lra]|].
  apply Forall_cons in Hx as [[H1 H2] Hx]. destruct (C68_incorporate pick b x 1 Hp Hb H1 H2) as (b1 & _ & E & S1 & _). destruct (IH b1 S1 Hx) as (b2 & t & Ht & Et).
  exists b2, (bs_score lg b1 - bs_score lg b + t)%R. split; [|lra]. eapply Pr_cons; [|exact E|exact Ht]. unfold bs_logp. by rewrite E.
Qed.
Print Assumptions C70_chain.

(** C70: but they are not the logarithms of the probabilities with which strings come out.
    "No corruption of the empty string" has log probability 0, whatever the emission has
    learnt, although every string can come out: nothing is recorded for the insertions at
    the end that did not happen. *)
Theorem C70_logp_refuted : forall lg pick b, valid_pick pick -> bs_shape b ->
  bs_logp lg pick b ([], []) = Ok 0%R /\ forall dirty, printables dirty -> exists r, bs_corrupt b [] r = Ok (dirty, []).
Proof.
  intros lg pick b Hp Hb. split; [|intros dirty; apply C70_support; [done|apply List.Forall_nil]].
  assert (printables []) as P0 by apply List.Forall_nil.
  assert (bs_incorporate pick b ([], []) 1 = Ok (BSE (bs_ins b) (bs_sub b) (bs_N b + 1)%R)) as E.
  { unfold bs_incorporate. cbv zeta. set (b0 := BSE (bs_ins b) (bs_sub b) (bs_N b + 1)%R). cbn [fst snd]. rewrite alignments_eq by done.
    destruct (C34_spells pick (bs_cost b0) 2 [] [] Hp) as (found & -> & Hf & _). cbn [obind]. generalize (foldl (fun t a => (t + exp (a_cost a))%R) 0%R found). intros t.
    assert (forall a, a ∈ found -> a_pieces a = []) as Hnil by (intros a Ha; destruct (Hf a Ha) as [Hal _]; by apply aligns_nil_l in Hal).
    clear Hf. induction found as [|a found IH]; [done|]. cbn [foldM]. unfold bs_learn at 1. rewrite (Hnil a) by left. cbn [foldM obind]. apply IH. intros a' Ha'. apply Hnil. by right. }
  unfold bs_logp. rewrite E. cbn [obind]. f_equal. change (bs_score lg (BSE (bs_ins b) (bs_sub b) (bs_N b + 1)%R)) with (bs_score lg b). lra.
Qed.
Print Assumptions C70_logp_refuted.

(** C70: when there is only one character between the two strings, so that only one
    alignment exists, the log probability is the logarithm of the probability the tables
    give to the choices of that alignment: for a character lost, that nothing was inserted
    and that the character was lost; for a character added, that it was inserted. *)
Theorem C70_logp_short : forall lg pick b history x, is_lgamma lg -> valid_pick pick -> bs_reached lg pick b history ->
  printables x.1 -> printables x.2 -> length x.1 + length x.2 = 1 ->
  exists q, aligns q x.1 x.2 /\ (forall q', aligns q' x.1 x.2 -> q' = q) /\ bs_logp lg pick b x = Ok (ln (p_alignment b q)).
Proof.
  intros lg pick b history x Hlg Hp Hr. destruct (reached_ok lg pick b history Hp Hr) as [Hs Hpos]. by apply short_logp.
Qed.
Print Assumptions C70_logp_short.

Example C70_logp_short_example : forall lg pick, exists b, bs_reached lg pick b [] /\ printables (txt "a") /\ printables (txt "") /\ length (txt "a") + length (txt "") = 1.
Proof.
  intros lg pick. destruct C68_new as (b & E & _). exists b. split; [by apply BS_new|]. split; [|split; [apply List.Forall_nil|reflexivity]].
  apply List.Forall_cons; [|apply List.Forall_nil]. split; vm_compute; discriminate.
Qed.

Example C70_example : exists b r, bs_new = Ok b /\ bs_corrupt b (txt "cat") r = Ok (txt "bat ", []).
Proof.
  assert (forall s, forallb (fun c => (32 <=? char_val c)%Z && (char_val c <=? 126)%Z) s = true -> printables s) as Hpr.
  { intros s H. apply Forall_forall. intros c Hc. apply elem_of_list_In in Hc. rewrite forallb_forall in H. specialize (H c Hc). unfold printable. lia. }
  destruct (C70_support) with (b := match bs_new with Ok b => b | _ => BSE [] [] 0%R end) (clean := txt "cat") (dirty := txt "bat ") as (r & Hr); [|by apply Hpr|by apply Hpr|].
  - destruct C68_new as (b & -> & Hb & _). exact Hb.
  - destruct C68_new as (b & E & _). rewrite E in Hr. exists b, r. split; [exact E|exact Hr].
Qed.

(** C71: the vote between two strings.  In every emission that was only given observations
    of positive weight: the vote follows an alignment than which the search knows no
    likelier, and elects at every place according to [elected]. *)
Theorem C71_vote : forall lg pick b history s1 s2 w1 w2, least_pick pick -> bs_reached lg pick b history ->
  printables s1 -> printables s2 -> (0 < w1)%R -> (0 < w2)%R ->
  exists q, bs_vote pick b s1 s2 w1 w2 = Ok (elected b w1 w2 None q) /\ aligns q s1 s2 /\
    forall q', aligns q' s1 s2 -> (p_searched b q' <= p_searched b q)%R.
Proof.
  intros lg pick b history s1 s2 w1 w2 Hl Hr. destruct (reached_ok lg pick b history (least_valid _ Hl) Hr) as [Hs Hpos]. by apply vote_run.
Qed.
Print Assumptions C71_vote.

(** C71: a proposal is made for every list of printable strings; it consists of characters
    that occur in them; for one string it is that string, for none the empty string. *)
Theorem C71_propose : forall lg pick b history corrupted, least_pick pick -> bs_reached lg pick b history -> Forall printables corrupted ->
  exists clean, bs_propose pick b corrupted = Ok clean /\ printables clean /\
    (forall c, c ∈ clean -> exists s, s ∈ corrupted /\ c ∈ s) /\
    (corrupted = [] -> clean = []) /\ (forall s, corrupted = [s] -> clean = s).
Proof.
  intros lg pick b history l Hl Hr H. destruct (reached_ok lg pick b history (least_valid _ Hl) Hr) as [Hs Hpos].
  destruct (propose_ok pick b l (fun c => exists s, s ∈ l /\ c ∈ s) Hl Hs Hpos H) as (clean & E & Hp & HQ); [eauto|].
  exists clean. split_and!; [done|done|intros c Hc; by eapply Forall_forall in HQ| |].
  - intros ->. by injection E as <-.
  - intros s ->. by injection E as <-.
Qed.
Print Assumptions C71_propose.

(** C71: strings that agree: they are the proposal, however many there are, if the emission
    takes it that each of their characters is more likely kept than deleted or replaced by
    any other. *)
Theorem C71_agreement : forall lg pick b history s n, least_pick pick -> bs_reached lg pick b history -> printables s ->
  (forall c d, c ∈ s -> choice_ok d -> d <> Some c -> (p_replace b c d < p_replace b c (Some c))%R) ->
  bs_propose pick b (replicate (S n) s) = Ok s.
Proof.
  intros lg pick b history s n Hl Hr Hp Hk. destruct (reached_ok lg pick b history (least_valid _ Hl) Hr) as [Hs Hpos]. by apply agree_propose.
Qed.
Print Assumptions C71_agreement.
(** A new emission does so for every string. *)
Example C71_example : forall pick s n, least_pick pick -> printables s -> exists b, bs_new = Ok b /\ bs_propose pick b (replicate (S n) s) = Ok s.
Proof.
  intros pick s n Hl Hp. destruct C68_new as (b & Hb & _). exists b. split; [exact Hb|].
  apply (C71_agreement (fun x => x) pick b [] s n Hl (BS_new _ _ _ Hb) Hp). destruct (fresh_plain b Hb) as (Hpl & _ & _ & _ & Hr & _ & Sr). clear Hb.
  intros c d Hc Hd Hne. assert (printable c) as Kc by (by eapply Forall_forall in Hp).
  rewrite !plain_replace by done. rewrite !Sr by done. rewrite !Hr by done. rewrite (decide_False (P := d = Some c)) by done. rewrite decide_True by done. lra.
Qed.

(** C71: without that condition it is false: two observations later, the proposal for two
    strings "a" is "aa". *)
Theorem C71_agreement_refuted : forall lg pick, least_pick pick ->
  exists b, bs_reached lg pick b [([], txt "a", 100000%R); (txt "a", [], 100000%R)] /\ bs_propose pick b [txt "a"; txt "a"] = Ok (txt "aa").
Proof. intros lg pick Hl. by apply double. Qed.
Print Assumptions C71_agreement_refuted.

(** C71: the proposal depends on the order of the strings: of two characters a new emission
    always proposes the second. *)
Theorem C71_order_refuted : forall pick, least_pick pick -> exists b, bs_new = Ok b /\
  forall c d, printable c -> printable d -> c <> d -> bs_propose pick b [[c]; [d]] = Ok [d] /\ bs_propose pick b [[d]; [c]] = Ok [c].
Proof.
  intros pick Hl. destruct C68_new as (b & Hb & _). exists b. split; [exact Hb|]. intros c d Kc Kd Hne.
  split; apply fresh_vote; (exact Hl || exact Hb || exact Kc || exact Kd || exact Hne || exact (not_eq_sym Hne)).
Qed.
Print Assumptions C71_order_refuted.

(** C71: the weight of a string is the number of strings it stands for, in a round without a
    string that has no partner. *)
Theorem C71_weights : forall pick b l l', bs_round pick b l = Ok l' -> Nat.even (length l) = true -> Rsum (map snd l') = Rsum (map snd l).
Proof.
  intros pick b l. apply (list_two_ind (fun l => forall l', bs_round pick b l = Ok l' -> Nat.even (length l) = true -> Rsum (map snd l') = Rsum (map snd l))).
  - intros l' [= <-]. done.
  - intros x l' _ H. done.
  - intros x y l0 IH l' H He. cbn [bs_round] in H. apply obind_Ok in H as (s & _ & H). apply obind_Ok in H as (l1 & H1 & H). injection H as <-.
    specialize (IH l1 H1 He). unfold Rsum in *. cbn [map foldr snd]. rewrite IH. lra.
Qed.
Print Assumptions C71_weights.
(** C71: a string without partner goes on with weight 1 even if it stands for more. *)
Theorem C71_weights_refuted : forall lg pick b history s1 s2 s3, least_pick pick -> bs_reached lg pick b history ->
  printables s1 -> printables s2 -> printables s3 ->
  exists s, bs_round pick b [(s1, 2%R); (s2, 2%R); (s3, 2%R)] = Ok [(s, (2 + 2)%R); (s3, 1%R)].
Proof.
  intros lg pick b history s1 s2 s3 Hl Hr H1 H2 H3. destruct (C71_vote lg pick b history s1 s2 2 2 Hl Hr H1 H2 ltac:(lra) ltac:(lra)) as (q & E & _).
  eexists. cbn [bs_round fst snd]. rewrite E. done.
Qed.
Print Assumptions C71_weights_refuted.
