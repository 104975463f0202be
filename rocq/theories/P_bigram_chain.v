(** The log probability of an edit of one character under the string emission [bigram]. *)
From Coq Require Import ZArith Reals Ascii String Lra.
From stdpp Require Import list gmap sorting.
From Coq Require Import Lia.
From Verif Require Import P_dirichlet M_base M_text M_math M_dist M_distributions M_align M_bigram_emis
  S_math S_crp S_align S_bigram_emis P_base P_math P_sum P_align T_align P_bigram_emis P_bigram_costs P_bigram_reach P_bigram_totals P_bigram_shares.
Local Open Scope nat_scope.

Lemma foldl_plus {A} (f : A -> R) l x : foldl (fun t d => (t + f d)%R) x l = (x + Rsum (f <$> l))%R.
Proof.
  revert x. induction l as [|a l IH]; intros x; [simpl; unfold Rsum; simpl; lra|]. rewrite fmap_cons, Rsum_cons. simpl. rewrite IH. lra.
Qed.
Lemma score_sums lg b : bs_score lg b = (Rsum (dc_score lg <$> bs_ins b) + Rsum (dc_score lg <$> bs_sub b))%R.
Proof. unfold bs_score. rewrite !foldl_plus. lra. Qed.

Lemma table_chain lg d x d' p : is_lgamma lg -> table_ok d -> Forall (fun c => 0 <= c)%R (dc_counts d) ->
  dc_logp d x = Ok p -> dc_incorporate d x 1 = Ok d' -> (dc_score lg d' - dc_score lg d = p)%R.
Proof.
  intros [_ Hlg] (Hlen & HN & Ha) Hpos Hp Hi. unfold dc_logp in Hp. unfold dc_incorporate in Hi.
  apply obind_Ok in Hp as (u1 & Hr & Hp). apply obind_Ok in Hp as (c & Hc & [= <-]). apply obind_Ok in Hi as (u2 & _ & Hi). rewrite Hc in Hi.
  cbn [obind] in Hi. injection Hi as <-. destruct (dc_counts d !! Z.to_nat x) as [c'|] eqn:Ec; [|done]. injection Hc as ->.
  unfold dc_score. cbn [dc_counts dc_alpha dc_N]. rewrite insert_length, !foldl_plus, list_fmap_insert.
  rewrite (Rsum_insert _ _ (lg (c + dc_alpha d)%R)) by by rewrite list_lookup_fmap, Ec.
  assert (0 <= c)%R as Hc0 by (by eapply (Forall_lookup_1 _ _ _ _ Hpos)).
  assert (0 <= Rsum (dc_counts d))%R as HN0 by by apply Rsum_nonneg.
  assert (0 < INR (length (dc_counts d)))%R as Hk by (apply lt_0_INR; rewrite Hlen; unfold bs_contexts; lia).
  pose proof (Rmult_lt_0_compat _ _ Ha Hk).
  replace (dc_alpha d * INR (length (dc_counts d)) + (dc_N d + 1))%R with (dc_alpha d * INR (length (dc_counts d)) + dc_N d + 1)%R by lra.
  replace (c + 1 + dc_alpha d)%R with (c + dc_alpha d + 1)%R by lra.
  rewrite !Hlg by lra. rewrite (Rplus_comm (dc_alpha d) c), (Rplus_comm (dc_N d)). lra.
Qed.

Lemma add_chain lg l k x l' p : is_lgamma lg -> tables_ok l -> tables_pos l -> bs_lp_at l k x = Ok p -> bs_add l k x 1 = Ok l' ->
  (Rsum (dc_score lg <$> l') - Rsum (dc_score lg <$> l) = p)%R.
Proof.
  intros Hlg [_ Hok] Hpos Hp Ha. unfold bs_lp_at in Hp. unfold bs_add in Ha. apply obind_Ok in Hp as (d & Hd & Hp). rewrite Hd in Ha. cbn [obind] in Ha.
  apply obind_Ok in Ha as (d' & Hd' & [= <-]). unfold bs_at in Hd. case_bool_decide as Hk; [|done]. destruct (l !! Z.to_nat k) as [d0|] eqn:El; [|done]. injection Hd as ->.
  rewrite list_fmap_insert, (Rsum_insert _ _ (dc_score lg d)) by by rewrite list_lookup_fmap, El.
  rewrite <- (table_chain lg d x d' p Hlg (Forall_lookup_1 _ _ _ _ Hok El) (Forall_lookup_1 _ _ _ _ Hpos El) Hp Hd'). lra.
Qed.

(** A pair with one alignment of one piece. *)
Lemma one_piece pick b x q p : valid_pick pick -> bs_shape b -> printables x.1 -> printables x.2 ->
  (forall q', aligns q' x.1 x.2 -> q' = q) -> q = [p] ->
  exists b' ctx, bs_incorporate pick b x 1 = Ok b' /\ bs_piece 1 (BSE (bs_ins b) (bs_sub b) (bs_N b + 1), None) p = Ok (b', ctx).
Proof.
  intros Hp Hb H1 H2 Hq ->. unfold bs_incorporate. cbv zeta. set (b0 := BSE (bs_ins b) (bs_sub b) (bs_N b + 1)%R).
  rewrite alignments_eq by done.
  destruct (topk_run pick (bs_cost b0) 2 x.1 x.2 Hp) as (hs & fs & xs & ds & V & Hrun & Hi & Hle & _). rewrite Hrun. cbn [obind].
  destruct (inv_found_aligns _ _ _ _ _ _ _ _ Hi) as [Hnd Hal].
  pose proof (topk_some pick (bs_cost b0) 2 x.1 x.2 _ Hp ltac:(lia) Hrun) as Hne.
  assert (fs = [[p]]) as ->.
  { destruct fs as [|f1 [|f2 fs]]; [done| |].
    - by rewrite (Hq f1) by (apply Hal; left).
    - exfalso. apply NoDup_cons in Hnd as [Hnd _]. apply Hnd. rewrite (Hq f1), (Hq f2); [left|apply Hal; right; left|apply Hal; left]. }
  cbn [map foldl foldM]. unfold bs_learn. cbn [mk a_pieces a_cost].
  pose proof (exp_pos (cost_of (bs_cost b0) [p])) as He.
  assert (1 * exp (cost_of (bs_cost b0) [p]) / (0 + exp (cost_of (bs_cost b0) [p])) = 1)%R as Ew by (field; lra). rewrite Ew.
  cbn [foldM]. assert (Forall known [p]) as Hk. { apply (aligns_known [p] x.1 x.2); [apply Hal; left|done|done]. }
  destruct (bs_piece_ok 1 b0 None p Hb Logic.I (proj1 (Forall_singleton _ _) Hk)) as (b' & E & _). rewrite E. cbn [obind].
  by exists b', (next_ctx None p).
Qed.

Lemma short_logp lg pick b x : is_lgamma lg -> valid_pick pick -> bs_shape b -> bs_pos b -> printables x.1 -> printables x.2 ->
  length x.1 + length x.2 = 1 -> exists q, aligns q x.1 x.2 /\ (forall q', aligns q' x.1 x.2 -> q' = q) /\
  bs_logp lg pick b x = Ok (ln (p_alignment b q)).
Proof.
  intros Hlg Hp Hb Hpos H1 H2 Hlen.
  assert (exists p, (forall q', aligns q' x.1 x.2 -> q' = [p]) /\
    ((exists c, p = Ins c /\ printable c) \/ (exists c, p = Del c /\ printable c))) as (p & Hq & Hcase).
  { destruct x as [s1 s2]. cbn [fst snd] in *. destruct s1 as [|c [|? ?]], s2 as [|c' [|? ?]]; cbn in Hlen; try lia.
    - exists (Ins c'). split; [intros q' Hq'; by apply aligns_nil_l in Hq'|]. left. exists c'. split; [done|]. by apply Forall_cons in H2 as [H2 _].
    - exists (Del c). split; [intros q' Hq'; by apply aligns_nil_r in Hq'|]. right. exists c. split; [done|]. by apply Forall_cons in H1 as [H1 _]. }
  exists [p].
  assert (aligns [p] x.1 x.2) as Hal.
  { destruct (topk_run pick (bs_cost b) 2 x.1 x.2 Hp) as (hs & fs & xs & ds & V & Hrun & Hi & _).
    destruct (inv_found_aligns _ _ _ _ _ _ _ _ Hi) as [_ Hal]. pose proof (topk_some pick (bs_cost b) 2 x.1 x.2 _ Hp ltac:(lia) Hrun) as Hne.
    destruct fs as [|f fs]; [done|]. pose proof (Hal f ltac:(left)) as Hf. by rewrite (Hq f Hf) in Hf. }
  split; [done|]. split; [done|].
  destruct (one_piece pick b x [p] p Hp Hb H1 H2 Hq eq_refl) as (b' & ctx & Hinc & Hpc). unfold bs_logp. rewrite Hinc. cbn [obind]. f_equal.
  rewrite !score_sums. unfold p_alignment.
  destruct Hcase as [(c & -> & Hc)|(c & -> & Hc)]; cbn [bs_piece insertion_choices replacements replacement map concat app Rprod foldr fst snd] in *.
  - apply obind_Ok in Hpc as (b1 & Ha & [= <- <-]). unfold bs_add_ins in Ha. cbn [bs_ins bs_sub bs_N] in Ha. apply obind_Ok in Ha as (l & Hl & [= <-]). cbn [bs_ins bs_sub].
    destruct (p_insert_ok b None (Some c) Hb Hpos Logic.I Hc) as [Hlp _].
    rewrite !Rmult_1_r. rewrite <- (add_chain lg _ _ _ _ _ Hlg (proj1 Hb) (proj1 Hpos) Hlp Hl). lra.
  - apply obind_Ok in Hpc as (b1 & Ha & Hpc). unfold bs_add_ins in Ha. cbn [bs_ins bs_sub bs_N] in Ha. apply obind_Ok in Ha as (l & Hl & [= <-]).
    apply obind_Ok in Hpc as (b2 & Ha & [= <- <-]). unfold bs_add_sub in Ha. cbn [bs_ins bs_sub bs_N] in Ha. apply obind_Ok in Ha as (l2 & Hl2 & [= <-]). cbn [bs_ins bs_sub].
    destruct (p_insert_ok b None None Hb Hpos Logic.I Logic.I) as [Hlp Hi0]. destruct (p_replace_ok b c None Hb Hpos Hc Logic.I) as [Hlp2 Hr0].
    rewrite !Rmult_1_r. rewrite ln_mult by lra.
    rewrite <- (add_chain lg _ _ _ _ _ Hlg (proj1 Hb) (proj1 Hpos) Hlp Hl), <- (add_chain lg _ _ _ _ _ Hlg (proj2 Hb) (proj2 Hpos) Hlp2 Hl2). lra.
Qed.
