(** Generic facts about distributions, hyperparameter grids and histories. *)
From stdpp Require Import list strings gmap.
From Coq Require Import ZArith Reals Lra Lia.
From Verif Require Import M_base M_math M_dist M_distributions S_math S_dist S_relation P_base P_math.
Local Open Scope R_scope.

Lemma to_int_IZR z : to_int (IZR z) = z.
Proof.
  assert (forall y, Int_part (IZR y) = y) as H.
  { intros y. unfold Int_part. rewrite <- (tech_up (IZR y) (y + 1)); [lia| |];
      rewrite plus_IZR; lra. }
  unfold to_int. destruct (Rle_dec 0 (IZR z)); [apply H|].
  rewrite <- opp_IZR, H. lia.
Qed.

Lemma R_is_zero_INR n : R_is_zero (INR n) = bool_decide (n = 0%nat).
Proof.
  unfold R_is_zero. destruct (Req_EM_T _ _) as [H|H].
  - apply INR_eq with (m := 0%nat) in H. by rewrite bool_decide_eq_true_2.
  - rewrite bool_decide_eq_false_2; [done|]. intros ->. by apply H.
Qed.
Lemma R_is_pos_INR n : R_is_pos (INR n) = bool_decide (n <> 0%nat).
Proof.
  unfold R_is_pos. destruct (Rlt_dec _ _) as [H|H].
  - rewrite bool_decide_eq_true_2; [done|]. intros ->. simpl in H. lra.
  - rewrite bool_decide_eq_false_2; [done|]. intros Hn. apply H. apply lt_0_INR. lia.
Qed.

Lemma occurrences_cons {V} `{EqDecision V} (x y : V) l :
  occurrences x (y :: l) = ((if decide (y = x) then 1 else 0) + occurrences x l)%nat.
Proof. unfold occurrences. rewrite filter_cons. by destruct (decide (y = x)). Qed.
Lemma occurrences_perm {V} `{EqDecision V} (x : V) l l' : l ≡ₚ l' -> occurrences x l = occurrences x l'.
Proof. intros H. unfold occurrences. by rewrite H. Qed.
Lemma occurrences_le {V} `{EqDecision V} (x : V) l : (occurrences x l <= length l)%nat.
Proof. apply filter_length. Qed.

(** The weights of a hyperparameter transition are the softmax of the scores. *)
Lemma sample_weights_Ok lps : lps <> [] -> exists ws m, sample_weights lps = Ok ws /\
  ws = (fun lp => exp (lp - m)) <$> lps /\ length ws = length lps.
Proof.
  intros Hne. unfold sample_weights.
  destruct (max_element_index_spec (Some <$> lps)) as (m & Hm & _).
  { destruct lps; done. }
  rewrite list_lookup_fmap in Hm. destruct (lps !! max_element_index (Some <$> lps)) as [m'|]; [|done].
  simpl. eexists _, m'. split; [done|]. split; [done|]. by rewrite fmap_length.
Qed.

Lemma sample_weights_softmax lps ws i lp : sample_weights lps = Ok ws -> lps !! i = Some lp ->
  exists w, ws !! i = Some w /\ w / Rsum ws = exp lp / Rsum (exp <$> lps).
Proof.
  intros Hws Hi. destruct (sample_weights_Ok lps) as (ws' & m & Hws' & -> & _).
  { intros ->. done. }
  rewrite Hws in Hws'. injection Hws' as ->.
  eexists. rewrite list_lookup_fmap, Hi. split; [done|].
  assert ((fun lp => exp (lp - m)) <$> lps = (fun x => exp (- m) * x) <$> (exp <$> lps)) as ->.
  { rewrite <- list_fmap_compose. apply list_fmap_ext. intros j x _. unfold compose.
    by rewrite Rmult_comm, <- exp_plus. }
  rewrite Rsum_scal. unfold Rminus. rewrite exp_plus.
  assert (0 < Rsum (exp <$> lps)).
  { clear -Hi. revert i Hi. induction lps as [|x lps IH]; intros i Hi; [done|].
    rewrite fmap_cons, Rsum_cons. pose proof (exp_pos x).
    assert (0 <= Rsum (exp <$> lps)); [|lra].
    apply Rsum_nonneg. apply Forall_fmap, Forall_true. intros y. simpl. left. apply exp_pos. }
  pose proof (exp_pos (- m)). field. lra.
Qed.

Lemma grid_transition_Ok {H} (score : H -> R) grid r h r' :
  grid_transition score grid r = Ok (h, r') -> h ∈ grid.
Proof.
  unfold grid_transition. destruct grid as [|g0 grid]; [done|].
  intros E. apply obind_Ok in E as ([i r1] & _ & E).
  apply obind_Ok in E as (h' & E & [= <- <-]). apply idx_Ok in E. by eapply elem_of_list_lookup_2.
Qed.
Lemma grid_transition_total {H} (score : H -> R) grid r : grid <> [] ->
  exists h r', grid_transition score grid r = Ok (h, r').
Proof.
  intros Hne. unfold grid_transition. destruct grid as [|g0 grid]; [done|].
  unfold sample_from_logps.
  destruct (sample_weights_Ok (score <$> g0 :: grid)) as (ws & m & -> & _ & Hl); [done|].
  rewrite fmap_length in Hl. cbn [obind].
  destruct (choose_index (length ws) r) as [i r'] eqn:E. apply choose_index_lt in E; [|rewrite Hl; done].
  cbn [obind]. rewrite Hl in E. apply lookup_lt_is_Some_2 in E as [h Hh]. rewrite Hh. simpl. eauto.
Qed.

(** A history leaves exactly the values it should. *)
Lemma history_lawful {V} (D : Dist V) (L : lawful D) s l :
  dist_history D s l -> Forall (law_adm L) l /\ exists h, s = law_of L h l.
Proof.
  induction 1 as [sp r|s l v s' Hh [Ha [h ->]] Hi|s l v l' s' Hh [Ha [h ->]] Hp Hu|s l r s' r' Hh [Ha [h ->]] Hr].
  - split; [done|]. apply (law_new D L).
  - apply (law_inc D L) in Hi as [Hv ->]; [|done]. split; [by constructor|eauto].
  - rewrite (law_perm D L _ _ _ Hp) in Hu. rewrite Hp in Ha.
    rewrite (law_uninc D L) in Hu by done. injection Hu as <-. inversion Ha; subst. eauto.
  - apply (law_resample D L) in Hr as [h' ->]; [|done]. eauto.
Qed.
