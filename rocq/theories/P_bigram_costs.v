(** The costs of alignments under the string emission [bigram]. *)
From Coq Require Import ZArith Reals Ascii Lra.
From stdpp Require Import list gmap sorting.
From Coq Require Import Lia.
From Verif Require Import M_base M_text M_math M_dist M_distributions M_align M_bigram_emis
  S_math S_align S_bigram_emis P_base P_math P_crp_score P_dirichlet P_align P_bigram_emis.
Local Open Scope nat_scope.

(** ** Codes of choices *)
Lemma char_val_of n : (0 <= n < 128)%Z -> char_val (char_of n) = n.
Proof.
  intros Hn. unfold char_val, char_of. rewrite Z.mod_small by lia. rewrite N_ascii_embedding by lia. rewrite Z2N.id by lia.
  by rewrite bool_decide_true by lia.
Qed.
Lemma choice_code k : (0 <= k < Z.of_nat bs_contexts)%Z -> choice_ok (bs_char k) /\ bs_index_of (bs_char k) = k.
Proof.
  unfold bs_contexts. intros Hk. unfold bs_char. destruct (bool_decide_reflect (k = 0)%Z) as [->|Hne]; [done|].
  cbn [choice_ok bs_index_of]. unfold printable, bs_index. rewrite char_val_of by lia. lia.
Qed.
Lemma choice_decode o : choice_ok o -> bs_char (bs_index_of o) = o.
Proof.
  intros Ho. destruct (choice_code (bs_index_of o)) as [H1 H2]; [by apply ctx_range|]. by apply ctx_inj.
Qed.

(** ** Nonnegative tables *)
Definition table_pos (d : dc) : Prop := Forall (fun x => 0 <= x)%R (dc_counts d).
Definition tables_pos (l : list dc) : Prop := Forall table_pos l.
Definition bs_pos (b : bse) : Prop := tables_pos (bs_ins b) /\ tables_pos (bs_sub b).
Lemma table_entries d : table_ok d -> (forall j, (0 <= j < Z.of_nat bs_contexts)%Z -> (0 <= default 0 (dc_counts d !! Z.to_nat j))%R) -> table_pos d.
Proof.
  intros (Hl & _) H. apply Forall_lookup. intros i x Hx. specialize (H (Z.of_nat i)). rewrite Nat2Z.id, Hx in H. apply H.
  apply lookup_lt_Some in Hx. lia.
Qed.
Lemma entry_pos l i j : tables_pos l -> (0 <= entry l i j)%R.
Proof.
  intros H. unfold entry. destruct (l !! Z.to_nat i) as [d|] eqn:Hd; [|lra]. apply (Forall_lookup_1 _ _ _ _ H) in Hd.
  destruct (dc_counts d !! Z.to_nat j) as [x|] eqn:Hx; cbn; [|lra]. by apply (Forall_lookup_1 _ _ _ _ Hd) in Hx.
Qed.
Lemma tables_pos_entries l : tables_ok l -> (forall i j, (0 <= i < Z.of_nat bs_contexts)%Z -> (0 <= j < Z.of_nat bs_contexts)%Z -> (0 <= entry l i j)%R) -> tables_pos l.
Proof.
  intros [Hl Hall] H. apply Forall_lookup. intros i d Hd. apply table_entries; [by apply (Forall_lookup_1 _ _ _ _ Hall Hd)|]. intros j Hj.
  specialize (H (Z.of_nat i) j). unfold entry in H. rewrite Nat2Z.id, Hd in H. apply H; [|done]. apply lookup_lt_Some in Hd. lia.
Qed.

(** ** Shares *)
Lemma dc_share d x c : table_ok d -> table_pos d -> dc_counts d !! x = Some c ->
  (0 < dc_alpha d + c)%R /\ (dc_alpha d + c <= dc_N d + dc_alpha d * INR (length (dc_counts d)))%R.
Proof.
  intros (Hl & HN & Ha) Hp Hc. pose proof (Forall_lookup_1 _ _ _ _ Hp Hc) as H0. cbn in H0. split; [lra|].
  assert (c <= dc_N d)%R. { rewrite HN. apply Rsum_in_le; [done|]. by eapply elem_of_list_lookup_2. }
  assert (1 <= INR (length (dc_counts d)))%R. { rewrite Hl. change 1%R with (INR 1). apply le_INR. unfold bs_contexts. lia. }
  nra.
Qed.
Lemma dc_logp_neg d x l : table_ok d -> table_pos d -> dc_logp d x = Ok l -> (l <= 0)%R.
Proof.
  intros Hd Hp H. unfold dc_logp in H. apply obind_Ok in H as (u & Hr & H). apply obind_Ok in H as (c & Hc & [= <-]). apply idx_Ok in Hc.
  destruct (dc_share d _ c Hd Hp Hc) as [H1 H2]. apply ln_le_mono in H2; [lra|done].
Qed.
Lemma lp_at_neg l k x p : tables_ok l -> tables_pos l -> bs_lp_at l k x = Ok p -> (p <= 0)%R.
Proof.
  intros [_ Hall] Hp H. unfold bs_lp_at in H. apply obind_Ok in H as (d & Hd & H). unfold bs_at in Hd. destruct (bool_decide _); [|done].
  apply idx_Ok in Hd. apply (dc_logp_neg d x); [by apply (Forall_lookup_1 _ _ _ _ Hall Hd)|by apply (Forall_lookup_1 _ _ _ _ Hp Hd)|done].
Qed.
Lemma lp_at_ok l k x : tables_ok l -> tables_pos l -> (0 <= k < Z.of_nat bs_contexts)%Z -> (0 <= x < Z.of_nat bs_contexts)%Z ->
  bs_lp_at l k x = Ok (ln (share l k x)) /\ (0 < share l k x <= 1)%R.
Proof.
  intros Hl Hp Hk Hx. destruct (table_at l k Hl Hk) as (d & Hat & Hd & Hok). unfold bs_lp_at. rewrite Hat. cbn [obind].
  pose proof (Forall_lookup_1 _ _ _ _ Hp Hd) as Hdp. destruct Hok as (Hlen & HN & Ha).
  destruct (lookup_lt_is_Some_2 (dc_counts d) (Z.to_nat x)) as [c Hc]; [lia|]. unfold share. rewrite Hd, Hc. cbn [default from_option].
  destruct (dc_share d _ c (conj Hlen (conj HN Ha)) Hdp Hc) as [H1 H2].
  split.
  - unfold dc_logp, dc_in_range. rewrite bool_decide_true by lia. cbn [assert_ obind]. rewrite Hc. cbn [idx_ obind]. f_equal.
    change (Datatypes.id c) with c. rewrite ln_div' by lra. done.
  - change (Datatypes.id c) with c. split; [apply Rdiv_lt_0_compat; lra|]. apply Rmult_le_reg_r with (dc_N d + dc_alpha d * INR (length (dc_counts d)))%R; [lra|].
    unfold Rdiv. rewrite Rmult_assoc, Rinv_l by lra. lra.
Qed.

(** ** The cost of a piece *)
Definition piece_lp (b : bse) (ctx : option ascii) (p : piece) : outcome R :=
  match p with
  | Ins c => bs_lp_at (bs_ins b) (bs_index_of ctx) (bs_index c)
  | p =>
    let* l := bs_lp_at (bs_ins b) (bs_index_of ctx) 0 in
    let* l' := match p with
               | Del c => bs_lp_at (bs_sub b) (bs_index c) 0
               | Sub c c' => bs_lp_at (bs_sub b) (bs_index c) (bs_index c')
               | Mat c => bs_lp_at (bs_sub b) (bs_index c) (bs_index c)
               | Ins _ => UB
               end in
    Ok (l + l')%R
  end.
Lemma bs_context_app ps p : bs_context (ps ++ [p]) = match bs_context ps with Some c => Some c | None => head (left_of p) end.
Proof.
  unfold bs_context. rewrite rev_app_distr. cbn [rev app foldl].
  assert (forall l ctx, foldl (fun ctx p => match p with Del c => Some c | Ins _ => ctx | Sub a _ => Some a | Mat c => Some c end) ctx l =
    match foldl (fun ctx p => match p with Del c => Some c | Ins _ => ctx | Sub a _ => Some a | Mat c => Some c end) None l with Some c => Some c | None => ctx end) as E.
  { intros l. induction l as [|q l IH] using rev_ind; intros ctx; [done|]. rewrite !foldl_app. cbn [foldl]. rewrite IH. destruct q; try done. }
  rewrite E. by destruct p.
Qed.
Lemma bs_context_head ps : bs_context ps = head (lefts ps).
Proof.
  induction ps as [|p ps IH] using rev_ind; [done|]. rewrite bs_context_app, IH, lefts_app. unfold lefts at 3. cbn [map concat]. rewrite app_nil_r.
  by destruct (lefts ps).
Qed.
Lemma log_prob_snoc b ps p : bs_log_prob b (ps ++ [p]) = piece_lp b (bs_context (ps ++ [p])) p.
Proof. unfold bs_log_prob. rewrite last_snoc. by destruct p. Qed.
Definition piece_cost (b : bse) (a b' : text) (p : piece) : R :=
  (- match piece_lp b (head (a ++ left_of p)) p with Ok l => l | _ => 0 end)%R.
Lemma bs_additive b : additive (bs_cost b) (piece_cost b).
Proof.
  intros ps p c. unfold bs_cost, piece_cost. rewrite log_prob_snoc, bs_context_head, lefts_app. unfold lefts at 2. cbn [map concat]. rewrite app_nil_r. lra.
Qed.
Lemma piece_cost_pos b a b' p : bs_shape b -> bs_pos b -> (0 <= piece_cost b a b' p)%R.
Proof.
  intros [Hi Hs] [Pi Ps]. unfold piece_cost. destruct (piece_lp b (head (a ++ left_of p)) p) as [l| | | | |] eqn:H; try lra.
  assert (forall q r s, q = Ok r -> bs_lp_at (bs_ins b) (bs_index_of (head (a ++ left_of p))) 0 = Ok s -> (r <= 0)%R -> (0 <= - (s + r))%R) as Hsum.
  { intros q r s _ H1 H2. apply lp_at_neg in H1; [lra|done..]. }
  destruct p as [c|c|c c'|c]; cbn [piece_lp] in H.
  2:{ apply lp_at_neg in H; [lra|done..]. }
  all: apply obind_Ok in H as (l1 & H1 & H); apply obind_Ok in H as (l2 & H2 & [= <-]); eapply Hsum; [done|exact H1|by apply lp_at_neg in H2].
Qed.

(** ** The cost of an alignment *)
Lemma Rprod_app l l' : Rprod (l ++ l') = (Rprod l * Rprod l')%R.
Proof. unfold Rprod. induction l as [|x l IH]; cbn [app foldr]; [lra|]. rewrite IH. lra. Qed.
Lemma search_choices_snoc first ps p : search_choices first (ps ++ [p]) =
  search_choices first ps ++ [(match first with Some c => Some c | None => head (lefts (ps ++ [p])) end, ins_choice p)].
Proof.
  revert first. induction ps as [|q ps IH]; intros first; cbn [app search_choices].
  - f_equal. f_equal. destruct first; [done|]. unfold lefts. cbn [map concat]. by rewrite app_nil_r.
  - rewrite IH. f_equal. f_equal. f_equal. f_equal. destruct first; [done|]. unfold lefts. cbn [map concat]. by destruct (left_of q).
Qed.
Lemma p_insert_ok b c d : bs_shape b -> bs_pos b -> choice_ok c -> choice_ok d ->
  bs_lp_at (bs_ins b) (bs_index_of c) (bs_index_of d) = Ok (ln (p_insert b c d)) /\ (0 < p_insert b c d <= 1)%R.
Proof. intros [Hi _] [Pi _] Hc Hd. by apply lp_at_ok; [..|apply ctx_range|apply ctx_range]. Qed.
Lemma p_replace_ok b c d : bs_shape b -> bs_pos b -> printable c -> choice_ok d ->
  bs_lp_at (bs_sub b) (bs_index c) (bs_index_of d) = Ok (ln (p_replace b c d)) /\ (0 < p_replace b c d <= 1)%R.
Proof. intros [_ Hi] [_ Pi] Hc Hd. apply lp_at_ok; [done|done|apply idx_range in Hc; lia|by apply ctx_range]. Qed.
Lemma head_known ps : Forall known ps -> choice_ok (head (lefts ps)).
Proof.
  unfold lefts. induction 1 as [|p ps [H1 _] _ IH]; [done|]. cbn [map concat]. destruct (left_of p) as [|c l]; [done|]. cbn. by apply Forall_cons in H1 as [H1 _].
Qed.
Lemma piece_lp_ok b ctx p : bs_shape b -> bs_pos b -> choice_ok ctx -> known p ->
  piece_lp b ctx p = Ok (ln (p_insert b ctx (ins_choice p) * Rprod (map (fun e => p_replace b e.1 e.2) (replacement p))))%R /\
  (0 < p_insert b ctx (ins_choice p) * Rprod (map (fun e => p_replace b e.1 e.2) (replacement p)))%R.
Proof.
  intros Hb Hp Hc Hk. destruct (known_next ctx p Hc Hk) as [_ Hi]. destruct (p_insert_ok b ctx (ins_choice p) Hb Hp Hc Hi) as [E1 B1].
  destruct p as [c|c|c c'|c]; cbn [piece_lp ins_choice replacement map Rprod foldr fst snd bs_index_of] in *.
  2:{ rewrite Rmult_1_r. by split; [|lra]. }
  all: rewrite E1; cbn [obind].
  - destruct (p_replace_ok b c None Hb Hp) as [E2 B2]; [exact (proj1 (Forall_singleton _ _) (proj1 Hk))|done|]. cbn [bs_index_of] in E2. rewrite E2. cbn [obind].
    rewrite Rmult_1_r. split; [|apply Rmult_lt_0_compat; lra]. rewrite ln_mult by lra. done.
  - destruct (p_replace_ok b c (Some c') Hb Hp) as [E2 B2]; [exact (proj1 (Forall_singleton _ _) (proj1 Hk))|exact (proj1 (Forall_singleton _ _) (proj2 Hk))|].
    cbn [bs_index_of] in E2. rewrite E2. cbn [obind]. rewrite Rmult_1_r. split; [|apply Rmult_lt_0_compat; lra]. rewrite ln_mult by lra. done.
  - destruct (p_replace_ok b c (Some c) Hb Hp) as [E2 B2]; [exact (proj1 (Forall_singleton _ _) (proj1 Hk))|exact (proj1 (Forall_singleton _ _) (proj2 Hk))|].
    cbn [bs_index_of] in E2. rewrite E2. cbn [obind]. rewrite Rmult_1_r. split; [|apply Rmult_lt_0_compat; lra]. rewrite ln_mult by lra. done.
Qed.
Lemma searched_cost b ps : bs_shape b -> bs_pos b -> Forall known ps ->
  cost_of (bs_cost b) ps = (- ln (p_searched b ps))%R /\ (0 < p_searched b ps)%R.
Proof.
  intros Hb Hp. induction ps as [|p ps IH] using rev_ind; intros Hk.
  - unfold p_searched. cbn [search_choices replacements map concat Rprod foldr]. rewrite Rmult_1_l, ln_1. split; [|lra]. unfold cost_of. cbn. lra.
  - apply Forall_app in Hk as [Hk Hkp]. destruct (IH Hk) as [E B]. rewrite cost_of_snoc, E.
    destruct (piece_lp_ok b (head (lefts (ps ++ [p]))) p Hb Hp) as [E1 B1]; [apply head_known, Forall_app; done|exact (proj1 (Forall_singleton _ _) Hkp)|].
    assert (p_searched b (ps ++ [p]) = p_searched b ps * (p_insert b (head (lefts (ps ++ [p]))) (ins_choice p) * Rprod (map (fun e => p_replace b e.1 e.2) (replacement p))))%R as Es.
    { unfold p_searched. rewrite search_choices_snoc, map_app, Rprod_app. unfold replacements. rewrite map_app, concat_app, map_app, Rprod_app. cbn [map concat]. rewrite app_nil_r.
      cbn [Rprod foldr fst snd]. lra. }
    rewrite Es. split; [|by apply Rmult_lt_0_compat]. unfold bs_cost. rewrite log_prob_snoc, bs_context_head, E1, (ln_mult _ _ B B1). lra.
Qed.
Lemma exp_cost b ps : bs_shape b -> bs_pos b -> Forall known ps -> exp (cost_of (bs_cost b) ps) = (/ p_searched b ps)%R.
Proof. intros Hb Hp Hk. destruct (searched_cost b ps Hb Hp Hk) as [-> B]. rewrite exp_Ropp, exp_ln by done. done. Qed.
