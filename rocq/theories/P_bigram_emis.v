(** The tables of the string emission [bigram]. *)
From Coq Require Import ZArith Reals Ascii Lra.
From stdpp Require Import list gmap sorting.
From Coq Require Import Lia.
From Verif Require Import M_base M_text M_math M_dist M_distributions M_align M_bigram_emis
  S_math S_align S_bigram_emis P_base P_dirichlet P_align T_align.
Local Open Scope nat_scope.

(** ** Indices *)
Lemma char_val_inj c d : char_val c = char_val d -> c = d.
Proof.
  unfold char_val. intros H. rewrite <- (ascii_N_embedding c), <- (ascii_N_embedding d). f_equal.
  pose proof (N_ascii_bounded c). pose proof (N_ascii_bounded d).
  destruct (bool_decide_reflect (Z.of_N (N_of_ascii c) < 128)%Z), (bool_decide_reflect (Z.of_N (N_of_ascii d) < 128)%Z); lia.
Qed.
Lemma idx_range c : printable c -> (1 <= bs_index c < Z.of_nat bs_contexts)%Z.
Proof. unfold printable, bs_index, bs_contexts. lia. Qed.
Lemma ctx_range o : choice_ok o -> (0 <= bs_index_of o < Z.of_nat bs_contexts)%Z.
Proof. destruct o as [c|]; cbn [choice_ok bs_index_of]; [intros H%idx_range; lia|]. unfold bs_contexts. lia. Qed.
Lemma idx_inj c d : bs_index c = bs_index d -> c = d.
Proof. unfold bs_index. intros H. apply char_val_inj. lia. Qed.
Lemma ctx_inj o o' : choice_ok o -> choice_ok o' -> bs_index_of o = bs_index_of o' -> o = o'.
Proof.
  destruct o as [c|], o' as [d|]; cbn [choice_ok bs_index_of]; intros H H' E; [by apply idx_inj in E as ->|apply idx_range in H; lia|apply idx_range in H'; lia|done].
Qed.

(** ** One entry of a table *)
Lemma times_cons {A} `{EqDecision A} (x y : A) l : times x (y :: l) = ((if decide (y = x) then 1 else 0) + times x l)%R.
Proof.
  unfold times. rewrite filter_cons. destruct (decide (y = x)); [|lra]. cbn [length]. rewrite S_INR. lra.
Qed.
Lemma times_nil {A} `{EqDecision A} (x : A) : times x [] = 0%R.
Proof. done. Qed.
Lemma times_app {A} `{EqDecision A} (x : A) l l' : times x (l ++ l') = (times x l + times x l')%R.
Proof. unfold times. by rewrite filter_app, app_length, plus_INR. Qed.
Lemma table_at l k : tables_ok l -> (0 <= k < Z.of_nat bs_contexts)%Z -> exists d, bs_at l k = Ok d /\ l !! Z.to_nat k = Some d /\ table_ok d.
Proof.
  intros [Hlen Hall] Hk. destruct (lookup_lt_is_Some_2 l (Z.to_nat k)) as [d Hd]; [lia|].
  exists d. split_and!; [|done|by apply (Forall_lookup_1 _ _ _ _ Hall Hd)]. unfold bs_at. rewrite bool_decide_true by lia. by rewrite Hd.
Qed.
Lemma table_add d x w : table_ok d -> (0 <= x < Z.of_nat bs_contexts)%Z -> exists d', dc_incorporate d x w = Ok d' /\ table_ok d' /\
  dc_alpha d' = dc_alpha d /\
  forall j, (0 <= j)%Z -> default 0%R (dc_counts d' !! Z.to_nat j) = (default 0%R (dc_counts d !! Z.to_nat j) + if decide (j = x) then w else 0)%R.
Proof.
  intros (Hlen & HN & Ha) Hx. destruct (lookup_lt_is_Some_2 (dc_counts d) (Z.to_nat x)) as [c Hc]; [lia|].
  unfold dc_incorporate, dc_in_range. rewrite bool_decide_true by lia. cbn [assert_ obind]. rewrite Hc. cbn [idx_ obind].
  eexists. split; [done|]. split; [|split; [done|]].
  - split_and!; cbn [dc_counts dc_N dc_alpha]; [by rewrite insert_length| |done]. rewrite (Rsum_insert _ _ c) by done. lra.
  - intros j Hj. cbn [dc_counts]. destruct (decide (j = x)) as [->|Hne].
    + rewrite list_lookup_insert by lia. by rewrite Hc.
    + rewrite list_lookup_insert_ne by lia. lra.
Qed.
Lemma bs_add_ok l k x w : tables_ok l -> (0 <= k < Z.of_nat bs_contexts)%Z -> (0 <= x < Z.of_nat bs_contexts)%Z ->
  exists l', bs_add l k x w = Ok l' /\ tables_ok l' /\ map dc_alpha l' = map dc_alpha l /\
    forall i j, (0 <= i)%Z -> (0 <= j)%Z -> entry l' i j = (entry l i j + if decide ((i, j) = (k, x)) then w else 0)%R.
Proof.
  intros Hl Hk Hx. destruct (table_at l k Hl Hk) as (d & Hat & Hd & Hok). destruct (table_add d x w Hok Hx) as (d' & Hadd & Hok' & Ha & Hj).
  destruct Hl as [Hlen Hall]. unfold bs_add. rewrite Hat. cbn [obind]. rewrite Hadd. cbn [obind]. eexists. split; [done|]. split_and!.
  - split; [by rewrite insert_length|]. by apply Forall_insert.
  - change (map dc_alpha ?x) with (dc_alpha <$> x). rewrite list_fmap_insert. apply list_insert_id. by rewrite list_lookup_fmap, Hd, Ha.
  - intros i j Hi Hj0. unfold entry. destruct (decide (i = k)) as [->|Hne].
    + rewrite list_lookup_insert by lia. rewrite Hd, Hj by done. destruct (decide (j = x)) as [->|].
      * by rewrite decide_True.
      * rewrite decide_False; [done|congruence].
    + rewrite list_lookup_insert_ne by lia. rewrite decide_False by congruence. lra.
Qed.

(** ** One alignment *)
Definition known (p : piece) : Prop := printables (left_of p) /\ printables (right_of p).
Lemma aligns_known ps s1 s2 : aligns ps s1 s2 -> printables s1 -> printables s2 -> Forall known ps.
Proof.
  intros (<- & <- & _). unfold lefts, rights, printables. induction ps as [|p ps IH]; cbn [map concat]; [constructor|].
  rewrite !Forall_app. intros [H1 H2] [H3 H4]. constructor; [done|]. by apply IH.
Qed.
(** What a call adds to the tables. *)
Record grown (b b' : bse) (di : option ascii -> option ascii -> R) (ds : ascii -> option ascii -> R) : Prop := {
  gr_shape : bs_shape b';
  gr_alpha : hyperparameters b' = hyperparameters b;
  gr_ins : forall c d, choice_ok c -> choice_ok d -> inserted b' c d = (inserted b c d + di c d)%R;
  gr_sub : forall c d, printable c -> choice_ok d -> replaced b' c d = (replaced b c d + ds c d)%R;
}.
Lemma grown_trans b b1 b2 di ds di' ds' : grown b b1 di ds -> grown b1 b2 di' ds' ->
  grown b b2 (fun c d => di c d + di' c d)%R (fun c d => ds c d + ds' c d)%R.
Proof.
  intros [_ H2 H3 H4] [K1 K2 K3 K4]. split; [done|congruence| |].
  - intros c d Hc Hd. rewrite K3, H3 by done. lra.
  - intros c d Hc Hd. rewrite K4, H4 by done. lra.
Qed.
Lemma grown_ext b b' di ds di' ds' : grown b b' di ds -> (forall c d, choice_ok c -> choice_ok d -> di c d = di' c d) ->
  (forall c d, printable c -> choice_ok d -> ds c d = ds' c d) -> grown b b' di' ds'.
Proof. intros [H1 H2 H3 H4] E E'. split; [done|done| |]; intros c d Hc Hd; [by rewrite H3, E|by rewrite H4, E']. Qed.
Lemma grown_refl b : bs_shape b -> grown b b (fun _ _ => 0%R) (fun _ _ => 0%R).
Proof. intros H. split; [done|done|intros; lra|intros; lra]. Qed.
Lemma add_ins_ok b ctx what w : bs_shape b -> choice_ok ctx -> choice_ok what ->
  exists b', bs_add_ins b (bs_index_of ctx) (bs_index_of what) w = Ok b' /\ bs_N b' = bs_N b /\
    grown b b' (fun c d => if decide ((ctx, what) = (c, d)) then w else 0)%R (fun _ _ => 0%R).
Proof.
  intros [Hi Hs] Hc Hw. destruct (bs_add_ok (bs_ins b) _ _ w Hi (ctx_range _ Hc) (ctx_range _ Hw)) as (l & Hl & Hok & Ha & He).
  unfold bs_add_ins. rewrite Hl. cbn [obind]. eexists. split; [done|]. split; [done|]. split; [done|unfold hyperparameters; cbn [bs_ins bs_sub]; by rewrite Ha| |].
  - intros c d Hc' Hd. unfold inserted. cbn [bs_ins]. pose proof (ctx_range _ Hc'). pose proof (ctx_range _ Hd). rewrite He by lia. f_equal.
    destruct (decide ((ctx, what) = (c, d))) as [[= -> ->]|Hne]; [by rewrite decide_True|]. rewrite decide_False; [done|].
    intros [= E1 E2]. apply Hne. apply ctx_inj in E1, E2; [congruence|done..].
  - intros c d _ _. unfold replaced. cbn [bs_sub]. lra.
Qed.
Lemma add_sub_ok b k what w : bs_shape b -> printable k -> choice_ok what ->
  exists b', bs_add_sub b (bs_index k) (bs_index_of what) w = Ok b' /\ bs_N b' = bs_N b /\
    grown b b' (fun _ _ => 0%R) (fun c d => if decide ((k, what) = (c, d)) then w else 0)%R.
Proof.
  intros [Hi Hs] Hc Hw. pose proof (idx_range _ Hc). destruct (bs_add_ok (bs_sub b) (bs_index k) _ w Hs ltac:(lia) (ctx_range _ Hw)) as (l & Hl & Hok & Ha & He).
  unfold bs_add_sub. rewrite Hl. cbn [obind]. eexists. split; [done|]. split; [done|]. split; [done|unfold hyperparameters; cbn [bs_ins bs_sub]; by rewrite Ha| |].
  - intros c d _ _. unfold inserted. cbn [bs_ins]. lra.
  - intros c d Hc' Hd. unfold replaced. cbn [bs_sub]. pose proof (idx_range _ Hc'). pose proof (ctx_range _ Hd). rewrite He by lia. f_equal.
    destruct (decide ((k, what) = (c, d))) as [[= -> ->]|Hne]; [by rewrite decide_True|]. rewrite decide_False; [done|].
    intros [= E1 E2]. apply Hne. apply idx_inj in E1. apply ctx_inj in E2; [congruence|done..].
Qed.
(** The choice of an insertion that a piece stands for and the context after it. *)
Definition ins_choice (p : piece) : option ascii := match p with Ins c => Some c | _ => None end.
Definition next_ctx (ctx : option ascii) (p : piece) : option ascii :=
  match p with Ins _ => ctx | Del c => Some c | Sub c _ => Some c | Mat c => Some c end.
Lemma insertion_choices_cons ctx p ps : insertion_choices ctx (p :: ps) = (ctx, ins_choice p) :: insertion_choices (next_ctx ctx p) ps.
Proof. by destruct p. Qed.
Lemma known_next ctx p : choice_ok ctx -> known p -> choice_ok (next_ctx ctx p) /\ choice_ok (ins_choice p).
Proof. intros Hc [H1 H2]. unfold printables in *. destruct p; cbn in *; rewrite ?Forall_singleton in *; tauto. Qed.
Lemma bs_piece_ok w b ctx p : bs_shape b -> choice_ok ctx -> known p ->
  exists b', bs_piece w (b, ctx) p = Ok (b', next_ctx ctx p) /\ bs_N b' = bs_N b /\
    grown b b' (fun c d => w * (if decide ((ctx, ins_choice p) = (c, d)) then 1 else 0))%R (fun c d => w * times (c, d) (replacement p))%R.
Proof.
  intros Hb Hc Hp. destruct (known_next ctx p Hc Hp) as [_ Hi]. destruct (add_ins_ok b ctx (ins_choice p) w Hb Hc Hi) as (b1 & H1 & HN1 & G1).
  assert (forall c d, (w * (if decide ((ctx, ins_choice p) = (c, d)) then 1 else 0) = if decide ((ctx, ins_choice p) = (c, d)) then w else 0)%R) as Ei.
  { intros c d. destruct (decide _); lra. }
  destruct p as [c|c|c c'|c]; cbn [bs_piece ins_choice bs_index_of next_ctx replacement] in *.
  2:{ rewrite H1. cbn [obind]. exists b1. split_and!; [done|done|]. eapply grown_ext; [exact G1|intros; cbv beta; by rewrite Ei|intros; cbv beta; rewrite times_nil; lra]. }
  all: rewrite H1; cbn [obind].
  - destruct (add_sub_ok b1 c None w (gr_shape _ _ _ _ G1)) as (b2 & H2 & HN2 & G2); [exact (proj1 (Forall_singleton _ _) (proj1 Hp))|done|].
    cbn [bs_index_of] in H2. rewrite H2. cbn [obind]. exists b2. split_and!; [done|congruence|].
    eapply grown_ext; [eapply grown_trans; [exact G1|exact G2]|intros; cbv beta; rewrite Ei; lra|]. intros c1 d1 _ _. cbv beta. rewrite times_cons, times_nil. destruct (decide _); lra.
  - destruct (add_sub_ok b1 c (Some c') w (gr_shape _ _ _ _ G1)) as (b2 & H2 & HN2 & G2);
      [exact (proj1 (Forall_singleton _ _) (proj1 Hp))|exact (proj1 (Forall_singleton _ _) (proj2 Hp))|].
    cbn [bs_index_of] in H2. rewrite H2. cbn [obind]. exists b2. split_and!; [done|congruence|].
    eapply grown_ext; [eapply grown_trans; [exact G1|exact G2]|intros; cbv beta; rewrite Ei; lra|]. intros c1 d1 _ _. cbv beta. rewrite times_cons, times_nil. destruct (decide _); lra.
  - destruct (add_sub_ok b1 c (Some c) w (gr_shape _ _ _ _ G1)) as (b2 & H2 & HN2 & G2);
      [exact (proj1 (Forall_singleton _ _) (proj1 Hp))|exact (proj1 (Forall_singleton _ _) (proj2 Hp))|].
    cbn [bs_index_of] in H2. rewrite H2. cbn [obind]. exists b2. split_and!; [done|congruence|].
    eapply grown_ext; [eapply grown_trans; [exact G1|exact G2]|intros; cbv beta; rewrite Ei; lra|]. intros c1 d1 _ _. cbv beta. rewrite times_cons, times_nil. destruct (decide _); lra.
Qed.
Lemma bs_pieces_ok w ps : forall b ctx, bs_shape b -> choice_ok ctx -> Forall known ps ->
  exists b' ctx', foldM (bs_piece w) (b, ctx) ps = Ok (b', ctx') /\ bs_N b' = bs_N b /\
    grown b b' (fun c d => w * times (c, d) (insertion_choices ctx ps))%R (fun c d => w * times (c, d) (replacements ps))%R.
Proof.
  induction ps as [|p ps IH]; intros b ctx Hb Hc Hk.
  - exists b, ctx. split_and!; [done|done|]. eapply grown_ext; [by apply grown_refl|intros; cbn; unfold times; cbn; lra..].
  - apply Forall_cons in Hk as [Hp Hk]. destruct (bs_piece_ok w b ctx p Hb Hc Hp) as (b1 & H1 & HN1 & G1).
    destruct (known_next ctx p Hc Hp) as [Hn _]. destruct (IH b1 _ (gr_shape _ _ _ _ G1) Hn Hk) as (b2 & ctx' & H2 & HN2 & G2).
    exists b2, ctx'. cbn [foldM]. rewrite H1. cbn [obind]. split_and!; [done|congruence|].
    eapply grown_ext; [eapply grown_trans; [exact G1|exact G2]| |]; intros c d _ _.
    + rewrite insertion_choices_cons, times_cons. lra.
    + unfold replacements. cbn [map concat]. rewrite times_app. lra.
Qed.

(** ** The alignments found *)
Lemma topk_some pick cost k s1 s2 found : valid_pick pick -> 0 < k -> topk_alignments pick k s1 s2 cost = Ok found -> found <> [].
Proof.
  intros Hp Hk H. destruct (topk_all pick cost k s1 s2 Hp) as (found' & H' & Hall). assert (found = found') as <- by congruence.
  destruct (Hall _ (some_alignment s1 s2)) as [Hin|Hl]; [by intros ->; apply elem_of_nil in Hin|]. intros ->. cbn in Hl. lia.
Qed.

Lemma knows_all b s : bs_shape b -> printables s -> foldM (fun (_ : unit) c => bs_knows b c) tt s = Ok tt.
Proof.
  intros [_ Hs] Hp. induction Hp as [|c s Hc Hp IH]; [done|]. cbn [foldM]. unfold bs_knows at 1. pose proof (idx_range _ Hc).
  destruct (table_at (bs_sub b) (bs_index c) Hs) as (d & -> & _); [lia|]. exact IH.
Qed.
Lemma alignments_eq pick b k s1 s2 : bs_shape b -> printables s1 -> printables s2 ->
  bs_alignments pick b k s1 s2 = topk_alignments pick k s1 s2 (bs_cost b).
Proof.
  intros Hb H1 H2. unfold bs_alignments. rewrite knows_all by done. cbn [obind]. replace (forallb _ s2) with true; [done|].
  symmetry. apply forallb_forall. intros c Hc. apply elem_of_list_In in Hc. apply bool_decide_eq_true. apply (proj1 (Forall_forall _ _) H2) in Hc. apply idx_range in Hc. lia.
Qed.

(** ** All alignments *)
Lemma foldl_exp (l : list alignment) t : foldl (fun t a => (t + exp (a_cost a))%R) t l = (t + Rsum (map (fun a => exp (a_cost a)) l))%R.
Proof. revert t. induction l as [|a l IH]; intros t; cbn; [unfold Rsum; cbn; lra|]. rewrite IH. unfold Rsum. cbn. lra. Qed.
Lemma Rsum_map_div {A} (f : A -> R) t l : Rsum (map (fun a => f a / t)%R l) = (Rsum (map f l) / t)%R.
Proof. unfold Rsum. induction l as [|a l IH]; cbn [map foldr]; [unfold Rdiv; by rewrite Rmult_0_l|]. rewrite IH. unfold Rdiv. lra. Qed.
Lemma Rsum_exp_pos (l : list alignment) : l <> [] -> (0 < Rsum (map (fun a => exp (a_cost a)) l))%R.
Proof.
  unfold Rsum. assert (forall l : list alignment, (0 <= foldr Rplus 0 (map (fun a => exp (a_cost a)) l))%R) as H.
  { clear l. intros l. induction l as [|a l IH]; cbn [map foldr]; [lra|]. pose proof (exp_pos (a_cost a)). lra. }
  destruct l as [|a l]; [done|]. intros _. cbn [map foldr]. specialize (H l). pose proof (exp_pos (a_cost a)). lra.
Qed.
Lemma bs_learn_all weight total found : forall b, bs_shape b -> (forall a, a ∈ found -> Forall known (a_pieces a)) ->
  exists b', foldM (bs_learn weight total) b found = Ok b' /\ bs_N b' = bs_N b /\
    grown b b' (fun c d => Rsum (map (fun a => weight * exp (a_cost a) / total * times (c, d) (insertion_choices None (a_pieces a))) found))%R
               (fun c d => Rsum (map (fun a => weight * exp (a_cost a) / total * times (c, d) (replacements (a_pieces a))) found))%R.
Proof.
  induction found as [|a found IH]; intros b Hb Hk.
  - exists b. split_and!; [done|done|]. by apply grown_refl.
  - destruct (bs_pieces_ok (weight * exp (a_cost a) / total)%R (a_pieces a) b None Hb) as (b1 & ctx & H1 & HN1 & G1); [done|apply Hk; by left|].
    destruct (IH b1 (gr_shape _ _ _ _ G1)) as (b2 & H2 & HN2 & G2); [intros a' Ha'; apply Hk; by right|].
    exists b2. cbn [foldM]. unfold bs_learn at 1. rewrite H1. cbn [obind]. split_and!; [done|congruence|].
    eapply grown_ext; [eapply grown_trans; [exact G1|exact G2]| |]; intros c d _ _; done.
Qed.
(** The alignments considered and the share of the weight that each gets. *)
Definition weighted (found : list alignment) : list (list piece * R) :=
  map (fun a => (a_pieces a, exp (a_cost a) / Rsum (map (fun a => exp (a_cost a)) found))%R) found.
Lemma weighted_sum found : found <> [] -> Rsum (map snd (weighted found)) = 1%R.
Proof.
  intros Hne. unfold weighted. rewrite map_map. cbn [snd]. rewrite (Rsum_map_div (fun a => exp (a_cost a))). apply Rsum_exp_pos in Hne. field. lra.
Qed.
Lemma Rsum_nonneg (l : list R) : Forall (fun x => 0 <= x)%R l -> (0 <= Rsum l)%R.
Proof. unfold Rsum. induction 1 as [|x l Hx Hl IH]; cbn [foldr]; lra. Qed.
Lemma Rsum_in_le (l : list R) x : Forall (fun x => 0 <= x)%R l -> x ∈ l -> (x <= Rsum l)%R.
Proof.
  induction 1 as [|y l Hy Hl IH]; intros Hin; [by apply elem_of_nil in Hin|]. unfold Rsum in *. apply elem_of_cons in Hin as [->|Hin]; cbn [foldr].
  - apply Rsum_nonneg in Hl. unfold Rsum in Hl. lra.
  - specialize (IH Hin). lra.
Qed.
Lemma weighted_share found a : a ∈ weighted found -> (0 < a.2 <= 1)%R.
Proof.
  intros (x & -> & Hx)%elem_of_list_fmap. cbn [snd]. assert (found <> []) as Hne by (intros ->; by apply elem_of_nil in Hx).
  apply Rsum_exp_pos in Hne. split; [apply Rdiv_lt_0_compat; [apply exp_pos|done]|].
  apply Rmult_le_reg_r with (1 := Hne). unfold Rdiv. rewrite Rmult_assoc, Rinv_l by lra. rewrite Rmult_1_r, Rmult_1_l.
  apply Rsum_in_le; [|by apply elem_of_list_fmap_1 with (f := fun a => exp (a_cost a))]. apply Forall_forall. intros y (z & -> & _)%elem_of_list_fmap. left. apply exp_pos.
Qed.
Lemma incorporate_run pick b x w : valid_pick pick -> bs_shape b -> printables x.1 -> printables x.2 ->
  exists b' found, bs_incorporate pick b x w = Ok b' /\ topk_alignments pick 2 x.1 x.2 (bs_cost b) = Ok found /\ found <> [] /\
    (forall a, a ∈ found -> aligns (a_pieces a) x.1 x.2 /\ a_cost a = cost_of (bs_cost b) (a_pieces a)) /\
    bs_N b' = (bs_N b + w)%R /\
    grown b b' (fun c d => w * Rsum (map (fun a => a.2 * times (c, d) (insertion_choices None a.1)) (weighted found)))%R
               (fun c d => w * Rsum (map (fun a => a.2 * times (c, d) (replacements a.1)) (weighted found)))%R.
Proof.
  intros Hp Hb H1 H2. unfold bs_incorporate. cbv zeta. set (b0 := BSE (bs_ins b) (bs_sub b) (bs_N b + w)%R).
  assert (bs_shape b0) as Hb0 by exact Hb. rewrite (alignments_eq pick b0 2 x.1 x.2) by done.
  change (bs_cost b0) with (bs_cost b).
  destruct (topk_run pick (bs_cost b) 2 x.1 x.2 Hp) as (hs & fs & xs & ds & V & Hrun & Hi & _). destruct (inv_found_aligns _ _ _ _ _ _ _ _ Hi) as [Hnd Hal].
  pose proof (topk_some _ _ 2 _ _ _ Hp ltac:(lia) Hrun) as Hne. rewrite Hrun. cbn [obind].
  set (found := map (mk (bs_cost b)) fs) in *.
  assert (forall a, a ∈ found -> aligns (a_pieces a) x.1 x.2 /\ a_cost a = cost_of (bs_cost b) (a_pieces a)) as Hf.
  { intros a (q & -> & Hq)%elem_of_list_fmap. cbn. by split; [apply Hal|]. }
  destruct (bs_learn_all w (foldl (fun t a => (t + exp (a_cost a))%R) 0%R found) found b0 Hb0) as (b' & Hb' & HN & G).
  { intros a Ha. by eapply aligns_known; [apply Hf|..]. }
  exists b', found. split_and!; [done|done|done|done|done|]. rewrite foldl_exp, Rplus_0_l in G.
  destruct G as [G1 G2 G3 G4].
  assert (forall f : list piece -> R, Rsum (map (fun a => w * exp (a_cost a) / Rsum (map (fun a => exp (a_cost a)) found) * f (a_pieces a))%R found)
     = (w * Rsum (map (fun a => a.2 * f a.1) (weighted found)))%R) as E.
  { intros f. unfold weighted. rewrite map_map. cbn [fst snd]. generalize (Rsum (map (fun a => exp (a_cost a)) found)). intros t. unfold Rsum.
    clear. induction found as [|a l IH]; cbn [map foldr]; [lra|]. rewrite IH. unfold Rdiv. lra. }
  split; [done|done| |]; intros c d Hc Hd.
  - rewrite G3 by done. by rewrite <- (E (fun q => times (c, d) (insertion_choices None q))).
  - rewrite G4 by done. by rewrite <- (E (fun q => times (c, d) (replacements q))).
Qed.
