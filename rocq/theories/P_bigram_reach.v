(** Reachable states of the string emission [bigram]. *)
From Coq Require Import ZArith Reals Ascii Lra.
From stdpp Require Import list gmap sorting.
From Coq Require Import Lia.
From Verif Require Import M_base M_text M_math M_dist M_distributions M_align M_bigram_emis
  S_math S_align S_bigram_emis P_base P_dist P_math P_crp_score P_dirichlet P_align P_bigram_emis P_bigram_costs.
Local Open Scope nat_scope.

(** ** The constructor *)
Definition bs_blank : bse := BSE (replicate bs_contexts (dc_new bs_contexts)) (replicate bs_contexts (dc_new bs_contexts)) 0.
Lemma Rsum_zeros n : Rsum (replicate n 0%R) = 0%R.
Proof. unfold Rsum. induction n as [|n IH]; cbn [replicate foldr]; [done|]. rewrite IH. lra. Qed.
Lemma blank_table : table_ok (dc_new bs_contexts).
Proof. split_and!; cbn [dc_new dc_counts dc_N dc_alpha]; [by rewrite replicate_length|by rewrite Rsum_zeros|lra]. Qed.
Lemma blank_tables : tables_ok (replicate bs_contexts (dc_new bs_contexts)).
Proof. split; [by rewrite replicate_length|]. apply Forall_replicate, blank_table. Qed.
Lemma blank_entry i j : entry (replicate bs_contexts (dc_new bs_contexts)) i j = 0%R.
Proof.
  unfold entry. destruct (replicate bs_contexts _ !! Z.to_nat i) as [d|] eqn:Hd; [|done]. apply lookup_replicate in Hd as [-> _]. cbn [dc_new dc_counts].
  destruct (replicate bs_contexts 0%R !! Z.to_nat j) as [x|] eqn:Hx; [|done]. by apply lookup_replicate in Hx as [-> _].
Qed.
Lemma blank_alphas : hyperparameters bs_blank = replicate (2 * bs_contexts) 1%R.
Proof. reflexivity. Qed.
Lemma bs_new_run n : n <= bs_contexts -> exists b, foldM bs_bias_step bs_blank (seq 0 n) = Ok b /\ bs_shape b /\ bs_N b = 0%R /\
  hyperparameters b = hyperparameters bs_blank /\
  (forall i j, (0 <= i)%Z -> (0 <= j)%Z -> entry (bs_ins b) i j = if decide ((i < Z.of_nat n)%Z /\ j = 0%Z) then bs_bias else 0%R) /\
  (forall i j, (0 <= i)%Z -> (0 <= j)%Z -> entry (bs_sub b) i j = if decide ((i < Z.of_nat n)%Z /\ j = i) then bs_bias else 0%R).
Proof.
  induction n as [|n IH]; intros Hn.
  - exists bs_blank. split_and!; [done|split; apply blank_tables|done|done| |]; intros i j Hi Hj; cbn [bs_ins bs_sub bs_blank]; rewrite blank_entry, decide_False by lia; done.
  - destruct IH as (b & Hrun & [Hi Hs] & HN & Ha & Ei & Es); [lia|].
    rewrite seq_S, foldM_app, Hrun. cbn [obind foldM plus]. unfold bs_bias_step.
    destruct (bs_add_ok (bs_ins b) (Z.of_nat n) 0 bs_bias Hi) as (li & Hli & Hoki & Hai & Eli); [lia|unfold bs_contexts; lia|].
    destruct (bs_add_ok (bs_sub b) (Z.of_nat n) (Z.of_nat n) bs_bias Hs) as (ls & Hls & Hoks & Has & Els); [lia|lia|].
    unfold bs_add_ins. rewrite Hli. cbn [obind]. unfold bs_add_sub. cbn [bs_sub bs_ins bs_N]. rewrite Hls. cbn [obind].
    eexists. split; [done|]. cbn [bs_ins bs_sub bs_N]. split_and!; [done|done| | |].
    + rewrite <- Ha. unfold hyperparameters. cbn [bs_ins bs_sub]. by rewrite Hai, Has.
    + intros i j H0 H1. rewrite Eli, Ei by done. destruct (decide ((i, j) = (Z.of_nat n, 0%Z))) as [[= -> ->]|Hne].
      * rewrite decide_False, decide_True by lia. lra.
      * destruct (decide ((i < Z.of_nat n)%Z /\ j = 0%Z)); [rewrite decide_True by lia; lra|]. rewrite decide_False; [lra|]. intros [H2 ->]. apply Hne. f_equal. lia.
    + intros i j H0 H1. rewrite Els, Es by done. destruct (decide ((i, j) = (Z.of_nat n, Z.of_nat n))) as [[= -> ->]|Hne].
      * rewrite decide_False, decide_True by lia. lra.
      * destruct (decide ((i < Z.of_nat n)%Z /\ j = i)); [rewrite decide_True by lia; lra|]. rewrite decide_False; [lra|]. intros [H2 ->]. apply Hne. f_equal; lia.
Qed.
Lemma bs_bias_pos : (0 <= bs_bias)%R.
Proof. unfold bs_bias. apply IZR_le. lia. Qed.
Lemma bs_new_ok : exists b, bs_new = Ok b /\ bs_shape b /\ bs_pos b /\ bs_N b = 0%R /\
  hyperparameters b = hyperparameters bs_blank /\
  (forall c d, choice_ok c -> choice_ok d -> inserted b c d = if decide (d = None) then bs_bias else 0%R) /\
  (forall c d, printable c -> choice_ok d -> replaced b c d = if decide (d = Some c) then bs_bias else 0%R).
Proof.
  destruct (bs_new_run bs_contexts) as (b & Hrun & Hb & HN & Ha & Ei & Es); [done|]. exists b. pose proof bs_bias_pos. split_and!; [exact Hrun|done| |done|done| |].
  - destruct Hb as [Hb1 Hb2]. split; apply tables_pos_entries; [done| |done|]; intros i j H1 H2; [rewrite Ei by lia|rewrite Es by lia]; destruct (decide _); lra.
  - intros c d Hc Hd. pose proof (ctx_range _ Hc). pose proof (ctx_range _ Hd). unfold inserted. rewrite Ei by lia.
    destruct (decide (d = None)) as [->|Hne]; [by rewrite decide_True by (cbn [bs_index_of]; lia)|]. rewrite decide_False; [done|]. intros [_ E]. apply Hne. by apply (ctx_inj d None).
  - intros c d Hc Hd. pose proof (idx_range _ Hc). pose proof (ctx_range _ Hd). unfold replaced. rewrite Es by lia.
    destruct (decide (d = Some c)) as [->|Hne]; [by rewrite decide_True by (cbn [bs_index_of]; lia)|]. rewrite decide_False; [done|]. intros [_ E]. apply Hne. by apply (ctx_inj d (Some c)).
Qed.

(** ** Hyperparameters *)
Definition same_counts (d d' : dc) : Prop := dc_counts d' = dc_counts d /\ dc_N d' = dc_N d /\ (0 < dc_alpha d')%R.
Lemma bs_hypers_ok lg l : forall r l' r', bs_hypers lg l r = Ok (l', r') -> Forall2 same_counts l l'.
Proof.
  induction l as [|d l IH]; intros r l' r' H; cbn [bs_hypers] in H; [by injection H as <- _|].
  apply obind_Ok in H as ((d' & r1) & Hd & H). apply obind_Ok in H as ((l2 & r2) & Hl & [= <- <-]). constructor; [|by eapply IH].
  unfold dc_transition in Hd. apply obind_Ok in Hd as ((a & r3) & Ha & [= <- <-]). apply grid_transition_Ok in Ha.
  split_and!; [done|done|]. cbn. by apply alpha_grid_pos.
Qed.
Lemma same_tables l l' : Forall2 same_counts l l' -> (tables_ok l -> tables_ok l') /\ (tables_pos l -> tables_pos l') /\ forall i j, entry l' i j = entry l i j.
Proof.
  intros H. split_and!.
  - intros [Hlen Hall]. split; [by rewrite <- (Forall2_length _ _ _ H)|]. clear Hlen. induction H as [|d d' l l' (E1 & E2 & E3) H IH]; constructor.
    + apply Forall_cons in Hall as [(H1 & H2 & _) _]. split_and!; [by rewrite E1|by rewrite E2, E1|done].
    + apply IH. by apply Forall_cons in Hall as [_ Hall].
  - intros Hp. induction H as [|d d' l l' (E1 & E2 & E3) H IH]; constructor; apply Forall_cons in Hp as [Hd Hp]; [unfold table_pos; by rewrite E1|by apply IH].
  - intros i j. unfold entry. pose proof (Forall2_lookup_lr same_counts l l' (Z.to_nat i)) as Hl.
    destruct (l !! Z.to_nat i) as [d|] eqn:Hd.
    + destruct (Forall2_lookup_l _ _ _ _ _ H Hd) as (d' & -> & (-> & _)). done.
    + apply lookup_ge_None in Hd. rewrite (Forall2_length _ _ _ H) in Hd. by apply lookup_ge_None in Hd as ->.
Qed.
Lemma transition_same lg b r b' r' : bs_transition lg b r = Ok (b', r') -> Forall2 same_counts (bs_ins b) (bs_ins b') /\ Forall2 same_counts (bs_sub b) (bs_sub b') /\ bs_N b' = bs_N b.
Proof.
  intros H. unfold bs_transition in H. apply obind_Ok in H as ((i & r1) & Hi & H). apply obind_Ok in H as ((s & r2) & Hs & [= <- <-]).
  split_and!; [by eapply bs_hypers_ok|by eapply bs_hypers_ok|done].
Qed.

(** ** Reachable states *)
Lemma grown_pos b b' di ds : bs_shape b -> bs_pos b -> grown b b' di ds -> (forall c d, choice_ok c -> choice_ok d -> (0 <= di c d)%R) ->
  (forall c d, printable c -> choice_ok d -> (0 <= ds c d)%R) -> (forall j, entry (bs_sub b') 0 j = entry (bs_sub b) 0 j) -> bs_pos b'.
Proof.
  intros Hb [Pi Ps] [[Hi Hs] _ Gi Gs] Hdi Hds H0. split; apply tables_pos_entries; [done| |done|]; intros i j H1 H2; destruct (choice_code i H1) as [C1 E1]; destruct (choice_code j H2) as [C2 E2].
  - specialize (Gi _ _ C1 C2). specialize (Hdi _ _ C1 C2). unfold inserted in Gi. rewrite E1, E2 in Gi. pose proof (entry_pos (bs_ins b) i j Pi). lra.
  - destruct (bs_char i) as [c|] eqn:Hc; cbn [bs_index_of] in E1.
    + specialize (Gs _ _ C1 C2). specialize (Hds _ _ C1 C2). unfold replaced in Gs. rewrite E1, E2 in Gs. pose proof (entry_pos (bs_sub b) i j Ps). lra.
    + rewrite <- E1, H0. by apply entry_pos.
Qed.
(** The row of [substitutions] for the empty context is never used. *)
Definition row0 (b : bse) : option dc := bs_sub b !! 0.
Lemma add_sub_row0 b k x w b' : (1 <= k)%Z -> bs_add_sub b k x w = Ok b' -> row0 b' = row0 b.
Proof.
  intros Hk H. unfold bs_add_sub, bs_add in H. apply obind_Ok in H as (l & Hl & [= <-]). apply obind_Ok in Hl as (d & _ & Hl). apply obind_Ok in Hl as (d' & _ & [= <-]).
  unfold row0. cbn. apply list_lookup_insert_ne. lia.
Qed.
Lemma add_ins_row0 b k x w b' : bs_add_ins b k x w = Ok b' -> row0 b' = row0 b.
Proof. intros H. unfold bs_add_ins in H. by apply obind_Ok in H as (l & Hl & [= <-]). Qed.
Lemma piece_row0 w st p st' : known p -> bs_piece w st p = Ok st' -> row0 st'.1 = row0 st.1.
Proof.
  intros Hk H. destruct st as [b ctx]. destruct p as [c|c|c c'|c]; cbn [bs_piece] in H; apply obind_Ok in H as (b1 & H1 & H); apply add_ins_row0 in H1.
  2:{ by injection H as <-. }
  all: apply obind_Ok in H as (b2 & H2 & [= <-]); apply add_sub_row0 in H2; [cbn; congruence|];
    pose proof (idx_range _ (proj1 (Forall_singleton _ _) (proj1 Hk))); lia.
Qed.
Lemma learn_row0 w t b a b' : Forall known (a_pieces a) -> bs_learn w t b a = Ok b' -> row0 b' = row0 b.
Proof.
  intros Hk H. unfold bs_learn in H. apply obind_Ok in H as ((b1 & ctx) & H & [= <-]).
  revert H. generalize (w * exp (a_cost a) / t)%R. intros u. generalize (@None ascii). revert b. induction (a_pieces a) as [|p ps IH]; intros b c H; cbn [foldM] in H; [by injection H as <- _|].
  apply Forall_cons in Hk as [Hp Hk]. apply obind_Ok in H as ((b2 & c2) & H1 & H). apply (piece_row0 _ _ _ _ Hp) in H1. apply (IH Hk) in H. cbn in H1. congruence.
Qed.
Lemma incorporate_row0 pick b x w b' : valid_pick pick -> bs_shape b -> printables x.1 -> printables x.2 -> bs_incorporate pick b x w = Ok b' -> row0 b' = row0 b.
Proof.
  intros Hp Hb H1 H2 H. destruct (incorporate_run pick b x w Hp Hb H1 H2) as (_ & found & _ & Hrun & _ & Hal & _).
  unfold bs_incorporate in H. cbv zeta in H. set (b0 := BSE (bs_ins b) (bs_sub b) (bs_N b + w)%R) in H.
  rewrite (alignments_eq pick b0 2 x.1 x.2) in H by done. change (bs_cost b0) with (bs_cost b) in H. rewrite Hrun in H. cbn [obind] in H.
  change (row0 b) with (row0 b0). revert H. generalize (foldl (fun t a => (t + exp (a_cost a))%R) 0%R found). intros t. generalize b0. clear b0 Hrun.
  assert (forall a, a ∈ found -> Forall known (a_pieces a)) as Hk by (intros a Ha; by eapply aligns_known; [apply Hal|..]). clear Hal.
  induction found as [|a l IH]; intros b0 H; cbn [foldM] in H; [by injection H as <-|].
  apply obind_Ok in H as (b1 & Ha & H). apply learn_row0 in Ha; [|apply Hk; by left]. apply IH in H; [congruence|]. intros a' Ha'. apply Hk. by right.
Qed.
Lemma times_pos {A} `{EqDecision A} (x : A) l : (0 <= times x l)%R.
Proof. apply pos_INR. Qed.
Lemma weighted_times_pos (f : list piece -> R) found : (forall q, 0 <= f q)%R -> (0 <= Rsum (map (fun a => a.2 * f a.1) (weighted found)))%R.
Proof.
  intros Hf. apply Rsum_nonneg, Forall_forall. intros y (a & -> & Ha)%elem_of_list_fmap. apply weighted_share in Ha. apply Rmult_le_pos; [lra|apply Hf].
Qed.
Lemma incorporate_pos pick b x w b' : valid_pick pick -> bs_shape b -> bs_pos b -> printables x.1 -> printables x.2 -> (0 <= w)%R ->
  bs_incorporate pick b x w = Ok b' -> bs_shape b' /\ bs_pos b'.
Proof.
  intros Hp Hb Pb H1 H2 Hw H. destruct (incorporate_run pick b x w Hp Hb H1 H2) as (b1 & found & E & _ & _ & _ & _ & G). assert (b1 = b') as -> by congruence.
  split; [apply (gr_shape _ _ _ _ G)|]. apply (grown_pos _ _ _ _ Hb Pb G).
  - intros c d _ _. apply Rmult_le_pos; [done|]. apply (weighted_times_pos (fun q => times (c, d) (insertion_choices None q))). intros q. apply times_pos.
  - intros c d _ _. apply Rmult_le_pos; [done|]. apply (weighted_times_pos (fun q => times (c, d) (replacements q))). intros q. apply times_pos.
  - intros j. unfold entry. change (Z.to_nat 0) with 0. pose proof (incorporate_row0 pick b x w b' Hp Hb H1 H2 H) as E0. unfold row0 in E0. by rewrite E0.
Qed.
Lemma reached_ok lg pick b l : valid_pick pick -> bs_reached lg pick b l -> bs_shape b /\ bs_pos b.
Proof.
  intros Hp. induction 1 as [b H|b l x w b' _ [IHs IHp] H1 H2 Hw H|b l r b' r' _ [IHs IHp] H].
  - destruct bs_new_ok as (b0 & E & Hs & Hpos & _). rewrite E in H. injection H as <-. exact (conj Hs Hpos).
  - apply (incorporate_pos pick b x w b'); [done..|lra|done].
  - destruct (transition_same _ _ _ _ _ H) as (Hi & Hs & _). destruct (same_tables _ _ Hi) as (Ti & Pi & _). destruct (same_tables _ _ Hs) as (Ts & Ps & _).
    destruct IHs, IHp. split; split; auto.
Qed.
