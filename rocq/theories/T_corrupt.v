(** Theorems about the table of categorical distributions (C50) and about sampling corrupted
    values (C60). *)
From Coq Require Import ZArith Reals Ascii Lra.
From stdpp Require Import list gmap strings.
From Coq Require Import Lia.
From Verif Require Import M_base M_text M_math M_dist M_distributions M_noisy M_emissions
  S_math S_crp S_dist S_relation S_emissions P_base P_math P_dist P_beta_bernoulli P_dirichlet P_normal
  P_weights P_emissions P_emission_laws P_propose T_propose T_dist T_emissions S_corrupt.
Local Open Scope R_scope.

(** ** C50 for the table of categorical distributions *)
Definition rows_hold (lg : R -> R) (k : nat) (ds : list dc) (l : list (Z * Z)) : Prop :=
  length ds = k /\ forall i d, ds !! i = Some d -> exists l0, l0 ≡ₚ observed_for (Z.of_nat i) l /\ dist_history (dc_dist lg k) d l0.
Lemma observed_cons_eq (c v : Z) l : observed_for c ((c, v) :: l) = v :: observed_for c l.
Proof. unfold observed_for. rewrite filter_cons. cbn [fst]. by rewrite decide_True. Qed.
Lemma observed_cons_ne (c c' v : Z) l : c' <> c -> observed_for c ((c', v) :: l) = observed_for c l.
Proof. intros. unfold observed_for. rewrite filter_cons. cbn [fst]. by rewrite decide_False. Qed.
Lemma observed_perm (c : Z) l l' : l ≡ₚ l' -> observed_for c l ≡ₚ observed_for c l'.
Proof. intros H. unfold observed_for. by rewrite H. Qed.
Lemma cg_row_Ok c z i d : cg_row c z = Ok (i, d) -> z = Z.of_nat i /\ cg_dists c !! i = Some d.
Proof.
  unfold cg_row. destruct (bool_decide_reflect (0 <= z)%Z) as [H0|H0]; [|done]. intros H. apply obind_Ok in H as (d' & Hd & [= <- <-]).
  apply idx_Ok in Hd. split; [lia|done].
Qed.
Lemma transition_all_rows lg ds : forall r ds' r', transition_all lg ds r = Ok (ds', r') ->
  Forall2 (fun d d' => exists r r', dc_transition lg d r = Ok (d', r')) ds ds'.
Proof.
  induction ds as [|d ds IH]; intros r ds' r' H; cbn [transition_all] in H; [injection H as <- <-; constructor|].
  apply obind_Ok in H as ([d1 r1] & H1 & H). apply obind_Ok in H as ([ds1 r2] & H2 & [= <- <-]). constructor; [by eexists _, _|by eapply IH].
Qed.
Lemma cg_rows lg k c l : emission_history (categorical_we lg k) c l -> rows_hold lg k (cg_dists c) l.
Proof.
  induction 1 as [|s l x s' _ [Hl IH] Hi|s l x l' s' _ [Hl IH] HP Hi|s l r s' r' _ [Hl IH] Ht].
  - cbn. split; [apply replicate_length|]. intros i d Hd. apply lookup_replicate in Hd as [-> _]. exists []. split; [done|]. exact (hist_new (dc_dist lg k) tt []).
  - cbn in Hi. unfold cg_incorporate in Hi. destruct x as [cl v]. cbn [fst snd] in Hi. apply obind_Ok in Hi as ([i d] & Hd & Hi). apply cg_row_Ok in Hd as [-> Hd].
    apply obind_Ok in Hi as (d1 & Hd1 & [= <-]). cbn [cg_dists]. split; [by rewrite insert_length|]. intros j e He.
    destruct (decide (j = i)) as [->|Hj].
    + rewrite list_lookup_insert in He by (by eapply lookup_lt_Some). injection He as <-. destruct (IH i d Hd) as (l0 & HP & H).
      exists (v :: l0). rewrite observed_cons_eq. split; [by apply perm_skip|]. exact (hist_inc (dc_dist lg k) _ _ _ _ H Hd1).
    + rewrite list_lookup_insert_ne in He by done. rewrite observed_cons_ne by lia. by apply IH.
  - cbn in Hi. unfold cg_incorporate in Hi. destruct x as [cl v]. cbn [fst snd] in Hi. apply obind_Ok in Hi as ([i d] & Hd & Hi). apply cg_row_Ok in Hd as [-> Hd].
    apply obind_Ok in Hi as (d1 & Hd1 & [= <-]). cbn [cg_dists]. split; [by rewrite insert_length|]. intros j e He. pose proof (observed_perm (Z.of_nat j) _ _ HP) as HPj.
    destruct (decide (j = i)) as [->|Hj].
    + rewrite list_lookup_insert in He by (by eapply lookup_lt_Some). injection He as <-. rewrite observed_cons_eq in HPj. destruct (IH i d Hd) as (l0 & HP0 & H).
      exists (observed_for (Z.of_nat i) l'). split; [done|]. exact (hist_uninc (dc_dist lg k) _ _ _ _ _ H (Permutation_trans HP0 HPj) Hd1).
    + rewrite list_lookup_insert_ne in He by done. rewrite observed_cons_ne in HPj by lia. destruct (IH j e He) as (l0 & HP0 & H). exists l0. split; [exact (Permutation_trans HP0 HPj)|done].
  - cbn in Ht. unfold cg_transition in Ht. apply obind_Ok in Ht as ([ds r1] & Ht & [= <- <-]). apply transition_all_rows in Ht. cbn [cg_dists].
    split; [by rewrite <- (Forall2_length _ _ _ Ht)|]. intros i d Hd. destruct (Forall2_lookup_r _ _ _ _ _ Ht Hd) as (d0 & Hd0 & r2 & r3 & E).
    destruct (IH i d0 Hd0) as (l0 & HP0 & H). exists l0. split; [done|]. exact (hist_resample (dc_dist lg k) _ _ _ _ _ H E).
Qed.
Lemma cg_at lg k c l x : emission_history (categorical_we lg k) c l -> (x < k)%nat ->
  exists d l0, cg_dists c !! x = Some d /\ cg_row c (Z.of_nat x) = Ok (x, d) /\ l0 ≡ₚ observed_for (Z.of_nat x) l /\ dist_history (dc_dist lg k) d l0.
Proof.
  intros H Hx. apply cg_rows in H as [Hl H]. destruct (lookup_lt_is_Some_2 (cg_dists c) x ltac:(lia)) as [d Hd]. destruct (H x d Hd) as (l0 & HP & Hh).
  exists d, l0. split_and!; try done. unfold cg_row. rewrite bool_decide_eq_true_2 by lia. by rewrite Nat2Z.id, Hd.
Qed.
Lemma cg_out lg k c l z : emission_history (categorical_we lg k) c l -> ~ in_cats k z -> cg_row c z = UB.
Proof.
  intros H Hz. apply cg_rows in H as [Hl _]. unfold cg_row, in_cats in *. destruct (bool_decide_reflect (0 <= z)%Z); [|done].
  rewrite (proj2 (lookup_ge_None _ _)) by lia. done.
Qed.
(** The weight of the row of a clean value: its concentration parameter. *)
Definition concentration (c : categ) (clean : nat) : R := from_option dc_alpha 0 (cg_dists c !! clean).

(** The probability of observing [v] for [clean] is the smoothed fraction of the values
    observed for [clean] that are [v]; the values of other clean states do not matter. *)
Theorem C50_categorical_predictive lg k c l clean v : emission_history (categorical_we lg k) c l -> (clean < k)%nat -> (v < k)%nat ->
  exists p, cg_logp c (Z.of_nat clean, Z.of_nat v) = Ok p /\ 0 < concentration c clean /\
    exp p = (concentration c clean + INR (occurrences (Z.of_nat v) (observed_for (Z.of_nat clean) l)))
            / (INR (length (observed_for (Z.of_nat clean) l)) + concentration c clean * INR k).
Proof.
  intros H Hc Hv. destruct (cg_at lg k c l clean H Hc) as (d & l0 & Hd & Hr & HP & Hh). destruct (C20_predictive lg k d l0 v Hh Hv) as (p & Hp & He & _).
  destruct (C20_state lg k d l0 Hh) as (_ & _ & _ & _ & Ha).
  exists p. unfold cg_logp. cbn [fst snd]. rewrite Hr. cbn [obind]. unfold concentration. rewrite Hd. cbn [from_option].
  by rewrite <- (occurrences_perm _ _ _ HP), <- (Permutation_length HP).
Qed.
Print Assumptions C50_categorical_predictive.
Theorem C50_categorical_sums_to_one lg k c l clean : emission_history (categorical_we lg k) c l -> (clean < k)%nat ->
  Rsum ((fun v => match cg_logp c (Z.of_nat clean, Z.of_nat v) with Ok p => exp p | _ => 0 end) <$> seq 0 k) = 1.
Proof.
  intros H Hc. destruct (cg_at lg k c l clean H Hc) as (d & l0 & Hd & Hr & HP & Hh). rewrite <- (C20_predictive_sums_to_one lg k d l0 Hh ltac:(lia)).
  f_equal. apply list_fmap_ext. intros i v Hv. unfold cg_logp. cbn [fst snd]. by rewrite Hr.
Qed.
Print Assumptions C50_categorical_sums_to_one.
(** A clean value that is not a category is undefined behaviour, an observed one an assertion. *)
Theorem C50_categorical_outside lg k c l x : emission_history (categorical_we lg k) c l ->
  (~ in_cats k x.1 -> cg_logp c x = UB /\ cg_incorporate c x 1 = UB) /\
  (in_cats k x.1 -> ~ in_cats k x.2 -> cg_logp c x = AssertFail /\ cg_incorporate c x 1 = AssertFail).
Proof.
  intros H. split.
  - intros Hx. unfold cg_logp, cg_incorporate. rewrite (cg_out lg k c l _ H Hx). done.
  - intros Hx Hv. destruct x as [cl v]. cbn [fst snd] in *. assert (exists i, cl = Z.of_nat i /\ (i < k)%nat) as (i & -> & Hi).
    { exists (Z.to_nat cl). unfold in_cats in Hx. lia. }
    destruct (cg_at lg k c l i H Hi) as (d & l0 & Hd & Hr & HP & Hh). unfold cg_logp, cg_incorporate. cbn [fst snd]. rewrite Hr. cbn [obind].
    destruct (history_lawful _ (dc_lawful lg k) _ _ Hh) as [_ [[a Ha] ->]]. cbn [law_of dc_lawful proj1_sig].
    unfold dc_incorporate, dc_logp. rewrite dc_in_range_of, bool_decide_eq_false_2 by done. done.
Qed.
Print Assumptions C50_categorical_outside.
Lemma Rsum_insert {A} (f : A -> R) l i x y : l !! i = Some x -> Rsum (f <$> <[i := y]> l) = Rsum (f <$> l) - f x + f y.
Proof.
  revert i. induction l as [|a l IH]; intros [|i] H; [done|done| |].
  - injection H as ->. change (<[0%nat := y]> (x :: l)) with (y :: l). rewrite !fmap_cons, !Rsum_cons. lra.
  - change (<[S i := y]> (a :: l)) with (a :: <[i := y]> l). rewrite !fmap_cons, !Rsum_cons, (IH i H). lra.
Qed.
(** Its log probability is the increase of its score. *)
Theorem C50_categorical lg k c l x c' p : is_lgamma lg -> emission_history (categorical_we lg k) c l ->
  cg_incorporate c x 1 = Ok c' -> cg_logp c x = Ok p -> cg_score lg c' - cg_score lg c = p.
Proof.
  intros Hlg H Hi Hp. destruct x as [cl v]. unfold cg_incorporate, cg_logp in *. cbn [fst snd] in *.
  apply obind_Ok in Hi as ([i d] & Hd & Hi). rewrite Hd in Hp. cbn [obind] in Hp. apply obind_Ok in Hi as (d1 & Hd1 & [= <-]).
  apply cg_row_Ok in Hd as [-> Hd]. apply cg_rows in H as [_ H]. destruct (H i d Hd) as (l0 & _ & Hh).
  unfold cg_score. cbn [cg_dists]. rewrite !foldl_Rsum. rewrite (Rsum_insert _ _ _ _ _ Hd), <- (C20_logp_is_score_increase lg k d l0 v p d1 Hlg Hh Hp Hd1). lra.
Qed.
Print Assumptions C50_categorical.
(** An emission with nothing in it has score 0. *)
Theorem C50_categorical_empty lg k c : emission_history (categorical_we lg k) c [] -> cg_score lg c = 0.
Proof.
  intros H. apply cg_rows in H as [_ H]. unfold cg_score. rewrite foldl_Rsum, Rplus_0_l.
  assert (forall ds, (forall i d, ds !! i = Some d -> dc_score lg d = 0) -> Rsum (dc_score lg <$> ds) = 0) as HF.
  { clear. induction ds as [|d ds IH]; intros H; [done|]. rewrite fmap_cons, Rsum_cons, (H 0%nat d eq_refl), IH; [lra|]. intros i e He. exact (H (S i) e He). }
  apply HF. intros i d Hd. destruct (H i d Hd) as (l0 & HP & Hh). cbn in HP. apply Permutation_nil_r in HP as ->.
  destruct (history_lawful _ (dc_lawful lg k) _ _ Hh) as [_ [[a Ha] ->]]. apply dc_score_empty.
Qed.
Print Assumptions C50_categorical_empty.
Example C50_categorical_meets lg : exists c, emission_history (categorical_we lg 3) c [(0, 2); (1, 1); (0, 2)]%Z /\ concentration c 0 = 1.
Proof.
  eexists. split.
  - eapply (eh_inc (categorical_we lg 3)); [eapply (eh_inc (categorical_we lg 3)); [eapply (eh_inc (categorical_we lg 3)); [apply (eh_new (categorical_we lg 3))|]|]|]; reflexivity.
  - reflexivity.
Qed.

(** ** C60: corrupted values are drawn as the log probability says *)
(** The Gaussian emission adds a draw of its error distribution, and changes nothing in itself. *)
Theorem C60_gaussian smp g clean r v r' : ga_corrupt smp g clean r = (v, r') -> zm_sample smp (ga_zmn g) r = (v - clean, r').
Proof. unfold ga_corrupt. destruct (zm_sample smp (ga_zmn g) r) as [d r0]. intros [= <- <-]. f_equal. lra. Qed.
Print Assumptions C60_gaussian.
(** That draw is of the Student-t distribution its log probability is the density of exactly
    when every pair in it has equal values; otherwise the error is drawn too wide. *)
Theorem C60_gaussian_matches_logp_iff lg smp g l : emission_history (gaussian_we lg smp) g l ->
  zm_sample_t (ga_zmn g) = zm_logp_t (ga_zmn g) <-> mean_square_of (map shift l) = 0.
Proof.
  intros H. assert (exists l0, l0 ≡ₚ map shift l /\ dist_history (zm_dist lg smp) (ga_zmn g) l0) as (l0 & HP & Hh).
  { induction H as [|s l x s' _ (l0 & HP & H) Hi|s l x l' s' _ (l0 & HP0 & H) HP Hi|s l r s' r' _ (l0 & HP & H) Ht].
    - exists []. split; [done|]. exact (hist_new (zm_dist lg smp) tt []).
    - injection Hi as <-. exists (shift x :: l0). split; [by apply perm_skip|]. exact (hist_inc (zm_dist lg smp) _ _ _ _ H eq_refl).
    - injection Hi as <-. exists (map shift l'). split; [done|]. refine (hist_uninc (zm_dist lg smp) _ _ (shift x) _ _ H _ eq_refl).
      etransitivity; [exact HP0|]. exact (Permutation_map shift HP).
    - cbn in Ht. unfold ga_transition in Ht. apply obind_Ok in Ht as ([z r1] & Hz & [= <- <-]). exists l0. split; [done|]. exact (hist_resample (zm_dist lg smp) _ _ _ _ _ H Hz). }
  rewrite (C22_sample_matches_logp_iff lg smp _ _ Hh).
  assert (mean_square_of l0 = mean_square_of (map shift l)) as ->; [|done].
  unfold mean_square_of. assert (Rsum ((fun x => x * x) <$> l0) = Rsum ((fun x => x * x) <$> map shift l)) as E by (by apply Rsum_perm, fmap_Permutation).
  pose proof (Permutation_length HP) as HL. destruct l0, (map shift l); try done. by rewrite E, HL.
Qed.
Print Assumptions C60_gaussian_matches_logp_iff.
Theorem C60_gaussian_matches_logp_refuted lg smp : exists g, emission_history (gaussian_we lg smp) g [(0, 1)] /\ zm_sample_t (ga_zmn g) <> zm_logp_t (ga_zmn g).
Proof.
  exists (ga_incorporate (Gauss 0 zm_new) (0, 1) 1). assert (emission_history (gaussian_we lg smp) (ga_incorporate (Gauss 0 zm_new) (0, 1) 1) [(0, 1)]) as H.
  { eapply (eh_inc (gaussian_we lg smp)); [apply (eh_new (gaussian_we lg smp))|reflexivity]. }
  split; [exact H|]. intros E. apply (C60_gaussian_matches_logp_iff lg smp _ _ H) in E. unfold mean_square_of, shift, Rsum in E. simpl in E. lra.
Qed.
Print Assumptions C60_gaussian_matches_logp_refuted.

(** A flipped bit: without a draw, the other value, the only one with a probability. *)
Theorem C60_bitflip n c r : exists v, we_corrupt bitflip_we n c r = Ok (v, r) /\ v <> c /\
  we_logp bitflip_we n (c, v) = Ok 0 /\ we_logp bitflip_we n (c, c) = AssertFail.
Proof. exists (negb c). cbn. unfold bf_logp. by destruct c. Qed.
Print Assumptions C60_bitflip.

(** The table: one draw among the categories, with weights proportional to the probabilities
    of observing each for this clean value. *)
Theorem C60_categorical lg k c l clean r : emission_history (categorical_we lg k) c l -> (clean < k)%nat ->
  exists i r' ws d, choose_index k r = (i, r') /\ cg_corrupt c (Z.of_nat clean) r = Ok (Z.of_nat i, r') /\ (i < k)%nat /\
    cg_dists c !! clean = Some d /\ dc_sample_weights d = ws /\ length ws = k /\
    forall v, (v < k)%nat -> exists p, cg_logp c (Z.of_nat clean, Z.of_nat v) = Ok p /\
      ws !! v = Some (exp p * (INR (length (observed_for (Z.of_nat clean) l)) + concentration c clean * INR k)).
Proof.
  intros H Hc. destruct (cg_at lg k c l clean H Hc) as (d & l0 & Hd & Hr & HP & Hh).
  destruct (C20_state lg k d l0 Hh) as (_ & Hl & _).
  destruct (choose_index k r) as [i r'] eqn:E. assert (i < k)%nat as Hi by (eapply choose_index_lt; [done|lia]).
  exists i, r', (dc_sample_weights d), d. split; [done|]. split.
  { unfold cg_corrupt. rewrite Hr. cbn [obind]. unfold dc_sample, dc_sample_weights. by rewrite fmap_length, Hl, E. }
  split_and!; try done. { unfold dc_sample_weights. by rewrite fmap_length. }
  intros v Hv. destruct (C20_predictive lg k d l0 v Hh Hv) as (p & Hp & _). exists p. unfold cg_logp. cbn [fst snd]. rewrite Hr. split; [done|].
  unfold concentration. rewrite Hd. cbn [from_option]. rewrite <- (Permutation_length HP). by eapply C20_sample_weights.
Qed.
Print Assumptions C60_categorical.
Theorem C60_categorical_outside lg k c l clean r : emission_history (categorical_we lg k) c l -> ~ in_cats k clean -> cg_corrupt c clean r = UB.
Proof. intros H Hc. unfold cg_corrupt. by rewrite (cg_out lg k c l clean H Hc). Qed.
Print Assumptions C60_categorical_outside.

(** Sometimes: one draw between keeping the clean value and passing it to the base emission,
    weighted by the probabilities of the two. *)
Theorem C60_sometimes {V} `{EqDecision V} (B : WEmis V) lg s l clean r : dist_history (bb_dist lg) (sm_bb s) l ->
  exists i r1, choose_index 2 r = (i, r1) /\
    bb_sample_weights (sm_bb s) = [exp (bb_logp (sm_bb s) false); exp (bb_logp (sm_bb s) true)] /\
    ((i = 0%nat /\ sm_corrupt B s clean r = Ok (clean, r1)) \/ (i = 1%nat /\ sm_corrupt B s clean r = we_corrupt B (sm_be s) clean r1)).
Proof.
  intros H. pose proof (C19_sample_weights lg _ _ H) as HW. destruct (choose_index 2 r) as [i r1] eqn:E. exists i, r1. split; [done|]. split; [done|].
  assert (i < 2)%nat as Hi by (eapply choose_index_lt; [done|lia]). unfold sm_corrupt, bb_sample. rewrite HW. cbn [length]. rewrite E.
  destruct i as [|[|i]]; [by left|by right|lia].
Qed.
Print Assumptions C60_sometimes.
(** So if the base emission draws [v] with the probability its log probability gives (and,
    unless it may keep the clean value, never draws that one), the probability with which
    Sometimes draws [v] is the one its own log probability gives. *)
Theorem C60_sometimes_law {V} `{EqDecision V} (B : WEmis V) (can_equal : bool) lg s l clean (draws : V -> R) v : dist_history (bb_dist lg) (sm_bb s) l ->
  (if can_equal then True else draws clean = 0) ->
  ((can_equal = true \/ v <> clean) -> exists p, we_logp B (sm_be s) (clean, v) = Ok p /\ exp p = draws v) ->
  exists q w0 w1, bb_sample_weights (sm_bb s) = [w0; w1] /\ sm_logp B can_equal s (clean, v) = Ok q /\
    exp q = w0 * (if decide (v = clean) then 1 else 0) + w1 * draws v.
Proof.
  intros Hs Hk Hd. rewrite (C19_sample_weights lg _ _ Hs). unfold sm_logp. cbn [fst snd].
  destruct (decide (clean = v)) as [<-|Hne].
  - destruct can_equal.
    + destruct Hd as (p & Hp & He); [by left|]. rewrite Hp. cbn [obind]. eexists _, _, _. split; [reflexivity|]. split; [reflexivity|].
      rewrite decide_True by done. pose proof (exp_pos (bb_logp (sm_bb s) false)). pose proof (exp_pos (bb_logp (sm_bb s) true + p)).
      rewrite exp_ln by lra. rewrite exp_plus, He. lra.
    + eexists _, _, _. split; [reflexivity|]. split; [reflexivity|]. rewrite decide_True by done. rewrite Hk. lra.
  - destruct Hd as (p & Hp & He); [by right|]. rewrite Hp. cbn [obind]. eexists _, _, _. split; [reflexivity|]. split; [reflexivity|].
    rewrite decide_False by done. rewrite exp_plus, He. lra.
Qed.
Print Assumptions C60_sometimes_law.
Example C60_sometimes_meets lg : exists s, dist_history (bb_dist lg) (sm_bb s) [true; false] /\
  sm_corrupt bitflip_we s true [1]%nat = Ok (false, []) /\ sm_corrupt bitflip_we s true [0]%nat = Ok (true, []).
Proof.
  exists (Sometimes_ bitflip_we 2 (bb_incorporate (bb_incorporate bb_new false 1) true 1) 1). split; [|by split].
  eapply (hist_inc (bb_dist lg)); [eapply (hist_inc (bb_dist lg)); [apply (hist_new (bb_dist lg) tt [])|]|]; reflexivity.
Qed.
Example C60_categorical_meets lg : exists c, emission_history (categorical_we lg 3) c [(0, 2); (1, 1)]%Z /\ cg_corrupt c 0 [2]%nat = Ok (2%Z, []).
Proof.
  eexists. split.
  - eapply (eh_inc (categorical_we lg 3)); [eapply (eh_inc (categorical_we lg 3)); [apply (eh_new (categorical_we lg 3))|]|]; reflexivity.
  - reflexivity.
Qed.
