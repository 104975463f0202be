(** The emissions keep exactly the statistics of the pairs in them; proposals. *)
From Coq Require Import ZArith Reals Ascii Lra.
From stdpp Require Import list gmap strings.
From Coq Require Import Lia.
From Verif Require Import M_base M_text M_math M_dist M_distributions M_noisy M_emissions M_align
  S_math S_dist S_relation S_align S_emissions P_base P_math P_dist P_beta_bernoulli P_dirichlet P_normal P_bigram P_weights P_align.
Local Open Scope R_scope.

(** ** Gaussian *)
Definition shifts (l : list ((R * R) * R)) : list (R * R) := map (fun e => (e.1.2 - e.1.1, e.2)) l.
Lemma shifts_weight l : weight_of (shifts l) = weight_of l.
Proof. induction l as [|[x w] l IH]; [done|]. cbn [shifts map]. fold (shifts l). by rewrite !weight_cons, IH. Qed.
Lemma shifts_ok ok l : Forall (fun e => ok e.2) l -> Forall (fun e => ok e.2) (shifts l).
Proof. intros H. unfold shifts. apply Forall_map. eapply Forall_impl; [exact H|]. done. Qed.
Definition wga_of (h : R * R) (l : list ((R * R) * R)) : gauss := Gauss (weight_of l) (wzm_of h (shifts l)).
Definition ga_wlawful : wlawful (fun g x w => Ok (ga_incorporate g x w)) positive_weight.
Proof.
  refine {| wl_hyp := R * R; wl_of := wga_of; wl_adm := fun _ => True |}.
  - intros h l l' HP. unfold wga_of. rewrite (weight_perm _ _ HP). f_equal. apply (wl_perm _ _ zm_wlawful). unfold shifts. by rewrite HP.
  - intros h l x w s' Hw Hl. unfold ga_incorporate. cbn [wga_of ga_N ga_zmn]. rewrite wzm_inc by (try done; by apply shifts_ok).
    unfold wga_of. rewrite weight_cons, (Rplus_comm w). split; [intros [= <-]; done|by intros [_ ->]].
  - intros h l x w Hw Hl _. unfold ga_incorporate. cbn [wga_of ga_N ga_zmn shifts map fst snd]. rewrite wzm_uninc by (try done; by apply shifts_ok).
    unfold wga_of. rewrite weight_cons. do 2 f_equal. lra.
Defined.

(** ** BitFlip and Sometimes *)
Definition bf_wlawful : wlawful bf_incorporate any_weight.
Proof.
  refine {| wl_hyp := unit; wl_of := fun _ l => weight_of l; wl_adm := fun x => x.1 <> x.2 |}.
  - intros _ l l' HP. by apply weight_perm.
  - intros _ l x w s' _ _. unfold bf_incorporate. rewrite weight_cons, (Rplus_comm w). destruct (bool_decide_reflect (x.1 <> x.2)); cbn; [split; [intros [= <-]; done|by intros [_ ->]]|split; [done|by intros [? _]]].
  - intros _ l x w _ _ Hx. unfold bf_incorporate. rewrite weight_cons. rewrite bool_decide_eq_true_2 by done. cbn. f_equal. lra.
Defined.

Section sometimes.
Context {V : Type} `{EqDecision V} (B : WEmis V) (okB : R -> Prop) (LB : wlawful (we_inc B) okB).
Definition differs (l : list ((V * V) * R)) : list (bool * R) := map (fun e => (bool_decide (e.1.1 <> e.1.2), e.2)) l.
Definition changed (l : list ((V * V) * R)) : list ((V * V) * R) := filter (fun e => e.1.1 <> e.1.2) l.
Definition wsm_of (h : (R * R) * wl_hyp LB) (l : list ((V * V) * R)) : sometimes B :=
  Sometimes_ B (weight_of l) (wbb_of h.1 (differs l)) (wl_of LB h.2 (changed l)).
Definition both (w : R) : Prop := whole_weight w /\ okB w.
Lemma differs_ok l : Forall (fun e => both e.2) l -> Forall (fun e => whole_weight e.2) (differs l).
Proof. intros H. unfold differs. apply Forall_map. eapply Forall_impl; [exact H|]. by intros e [He _]. Qed.
Lemma changed_ok l : Forall (fun e => both e.2) l -> Forall (fun e => okB e.2) (changed l).
Proof. intros H. unfold changed. rewrite Forall_forall in *. intros e He%elem_of_list_filter. destruct (H e (proj2 He)) as [_ Hb]. exact Hb. Qed.
Definition sm_wlawful : wlawful (sm_incorporate B false) both.
Proof.
  refine {| wl_hyp := (R * R) * wl_hyp LB; wl_of := wsm_of; wl_adm := fun x => x.1 <> x.2 -> wl_adm LB x |}.
  - intros h l l' HP. unfold wsm_of. rewrite (weight_perm _ _ HP). f_equal; [apply (wl_perm _ _ bb_wlawful); unfold differs; by rewrite HP|apply (wl_perm _ _ LB); unfold changed; by rewrite HP].
  - intros h l x w s' [Hw HwB] Hl. unfold sm_incorporate. cbn [wsm_of sm_N sm_bb sm_be].
    assert (wsm_of h ((x, w) :: l) = Sometimes_ B (weight_of l + w) (wbb_of h.1 ((bool_decide (x.1 <> x.2), w) :: differs l)) (wl_of LB h.2 (changed ((x, w) :: l)))) as ->.
    { unfold wsm_of. by rewrite weight_cons, (Rplus_comm w). }
    unfold changed. rewrite filter_cons. cbn [fst snd]. fold (changed l). rewrite !wbb_inc by done. destruct (decide (x.1 = x.2)) as [E|E].
    + rewrite decide_False by (by intros ?). rewrite bool_decide_eq_false_2 by (by intros ?). split; [intros [= <-]; done|by intros [_ ->]].
    + rewrite decide_True by done. rewrite bool_decide_eq_true_2 by done. split.
      * intros H. apply obind_Ok in H as (be & Hbe & H). apply (wl_inc _ _ LB) in Hbe as [Ha ->]; [|done|by apply changed_ok]. injection H as <-. done.
      * intros [Ha ->]. rewrite (proj2 (wl_inc _ _ LB h.2 (changed l) x w _ HwB (changed_ok _ Hl)) (conj (Ha E) eq_refl)). done.
  - intros h l x w [Hw HwB] Hl Ha. unfold sm_incorporate. cbn [wsm_of sm_N sm_bb sm_be differs map fst snd]. fold (differs l).
    rewrite !wbb_inc by by apply whole_opp. rewrite weight_cons. assert (w + weight_of l + - w = weight_of l) as -> by lra.
    unfold changed. rewrite filter_cons. cbn [fst snd]. fold (changed l). destruct (decide (x.1 = x.2)) as [E|E].
    + rewrite decide_False by (by intros ?). rewrite bool_decide_eq_false_2 by (by intros ?). rewrite wbb_cancel by done. done.
    + rewrite decide_True by done. rewrite bool_decide_eq_true_2 by done. rewrite (wl_uninc _ _ LB h.2 (changed l) x w HwB (changed_ok _ Hl) (Ha E)). cbn [obind]. by rewrite wbb_cancel.
Defined.
End sometimes.

(** ** Simple strings *)
(** The trials of substitution, insertion and deletion that a pair of strings stands for. *)
Definition trials : Type := list bool * list bool * list bool.
Definition add_trials (s i d : list bool) (t : trials) : trials := (s ++ t.1.1, i ++ t.1.2, d ++ t.2).
Fixpoint diff (fuel : nat) (clean dirty : text) : trials :=
  match fuel with
  | 0%nat => ([], [], [])
  | S fuel =>
    match clean, dirty with
    | [], [] => ([], [false], [])
    | [], _ => ([], replicate (length dirty) true, [])
    | _, [] => ([], replicate (length clean) false, replicate (length clean) true)
    | c :: clean', d :: dirty' =>
      if ceqb c d then add_trials [false] [false] [false] (diff fuel clean' dirty')
      else if bool_decide (last clean = last dirty) then
        add_trials [false] [false] [false] (diff fuel (take (length clean - 1) clean) (take (length dirty - 1) dirty))
      else if (length clean <? length dirty)%nat then add_trials [] [true] [] (diff fuel clean dirty')
      else if (length dirty <? length clean)%nat then add_trials [] [false] [true] (diff fuel clean' dirty)
      else add_trials [true] [false] [false] (diff fuel clean' dirty')
    end
  end.
Definition tag (w : R) (l : list bool) : list (bool * R) := map (fun b => (b, w)) l.
Definition simple_of (h : (R * R) * (R * R) * (R * R)) (n : R) (s i d : list (bool * R)) : simple :=
  Simple n (wbb_of h.1.1 s) (wbb_of h.1.2 i) (wbb_of h.2 d).
Lemma wbb_perm h l l' : l ≡ₚ l' -> wbb_of h l = wbb_of h l'.
Proof. apply (wl_perm _ _ bb_wlawful). Qed.
Lemma whole_mult w n : whole_weight w -> whole_weight (w * INR n).
Proof. intros [z ->]. exists (z * Z.of_nat n)%Z. by rewrite mult_IZR, INR_IZR_INZ. Qed.
Lemma wbb_repeat h x w n l : whole_weight w -> wbb_of h ((x, w * INR n) :: l) = wbb_of h (tag w (replicate n x) ++ l).
Proof.
  intros Hw. revert l. induction n as [|n IH]; intros l.
  - unfold wbb_of. cbn [replicate tag map app]. rewrite weight_cons, trues_cons. change (INR 0) with 0. rewrite Rmult_0_r, to_int_IZR. f_equal; [lra|by destruct x].
  - cbn [replicate tag map app]. fold (tag w (replicate n x)). rewrite <- (wbb_inc h (tag w (replicate n x) ++ l)), <- IH by done. rewrite wbb_inc by done.
    unfold wbb_of. rewrite !weight_cons, !trues_cons, S_INR. f_equal; [lra|]. destruct x; [|done].
    destruct Hw as [z ->]. rewrite (INR_IZR_INZ n), <- mult_IZR. replace (IZR z * (IZR (Z.of_nat n) + 1)) with (IZR (z * Z.of_nat n + z)) by (rewrite plus_IZR, mult_IZR; lra).
    rewrite !to_int_IZR. lia.
Qed.
Lemma tag_app w l l' : tag w (l ++ l') = tag w l ++ tag w l'.
Proof. apply map_app. Qed.

Lemma simple_sub h n s i d x w : whole_weight w -> trial_sub (simple_of h n s i d) x w = simple_of h n ((x, w) :: s) i d.
Proof. intros Hw. unfold trial_sub. cbn [simple_of ss_N ss_sub ss_ins ss_del]. by rewrite wbb_inc. Qed.
Lemma simple_ins h n s i d x w : whole_weight w -> trial_ins (simple_of h n s i d) x w = simple_of h n s ((x, w) :: i) d.
Proof. intros Hw. unfold trial_ins. cbn [simple_of ss_N ss_sub ss_ins ss_del]. by rewrite wbb_inc. Qed.
Lemma simple_del h n s i d x w : whole_weight w -> trial_del (simple_of h n s i d) x w = simple_of h n s i ((x, w) :: d).
Proof. intros Hw. unfold trial_del. cbn [simple_of ss_N ss_sub ss_ins ss_del]. by rewrite wbb_inc. Qed.
Lemma simple_perm h n s s' i i' d d' : s ≡ₚ s' -> i ≡ₚ i' -> d ≡ₚ d' -> simple_of h n s i d = simple_of h n s' i' d'.
Proof. intros Hs Hi Hd. unfold simple_of. by rewrite (wbb_perm _ _ _ Hs), (wbb_perm _ _ _ Hi), (wbb_perm _ _ _ Hd). Qed.

Lemma corporate_diff fuel : forall clean dirty h n s i d w, whole_weight w -> (length clean + length dirty < fuel)%nat ->
  corporate fuel (simple_of h n s i d) clean dirty w =
  Ok (simple_of h n (tag w (diff fuel clean dirty).1.1 ++ s) (tag w (diff fuel clean dirty).1.2 ++ i) (tag w (diff fuel clean dirty).2 ++ d)).
Proof.
  induction fuel as [|fuel IH]; intros clean dirty h n s i d w Hw Hf; [lia|]. cbn [corporate diff].
  destruct clean as [|c clean]; destruct dirty as [|e dirty].
  - by rewrite simple_ins.
  - rewrite simple_ins by by apply whole_mult. cbn [fst snd app]. unfold simple_of. by rewrite wbb_repeat.
  - rewrite simple_del, simple_ins by by apply whole_mult. cbn [fst snd app]. unfold simple_of. by rewrite !wbb_repeat.
  - assert (forall l : list (bool * R), forall t x, tag w ([x] ++ t) ++ l ≡ₚ tag w t ++ (x, w) :: l) as HP.
    { intros l ts x. cbn [app tag map]. apply Permutation_middle. }
    cbn [length] in Hf. destruct (ceqb c e); [|destruct (bool_decide (last (c :: clean) = last (e :: dirty)));
      [|destruct (length (c :: clean) <? length (e :: dirty))%nat; [|destruct (length (e :: dirty) <? length (c :: clean))%nat]]].
    + rewrite simple_sub, simple_ins, simple_del by done. rewrite IH by (try done; lia). unfold add_trials. cbn [fst snd]. f_equal. apply simple_perm; by rewrite HP.
    + rewrite simple_sub, simple_ins, simple_del by done. rewrite IH by (try done; rewrite !take_length; cbn [length]; lia). unfold add_trials. cbn [fst snd]. f_equal. apply simple_perm; by rewrite HP.
    + rewrite simple_ins by done. rewrite IH by (try done; cbn [length]; lia). unfold add_trials. cbn [fst snd]. f_equal. apply simple_perm; [done|by rewrite HP|done].
    + rewrite simple_del, simple_ins by done. rewrite IH by (try done; cbn [length]; lia). unfold add_trials. cbn [fst snd]. f_equal. apply simple_perm; [done|by rewrite HP|by rewrite HP].
    + rewrite simple_sub, simple_ins, simple_del by done. rewrite IH by (try done; lia). unfold add_trials. cbn [fst snd]. f_equal. apply simple_perm; by rewrite HP.
Qed.
Definition diff_of (x : text * text) : trials := diff (S (length x.1 + length x.2)) x.1 x.2.
Definition all_trials (f : trials -> list bool) (l : list ((text * text) * R)) : list (bool * R) := concat (map (fun e => tag e.2 (f (diff_of e.1))) l).
Definition wss_of (h : (R * R) * (R * R) * (R * R)) (l : list ((text * text) * R)) : simple :=
  simple_of h (weight_of l) (all_trials (fun t => t.1.1) l) (all_trials (fun t => t.1.2) l) (all_trials (fun t => t.2) l).
Lemma all_trials_perm f l l' : l ≡ₚ l' -> all_trials f l ≡ₚ all_trials f l'.
Proof.
  unfold all_trials. induction 1 as [|e l l' _ IH|e e' l|l1 l2 l3 _ IH1 _ IH2]; cbn [map concat]; [done|by rewrite IH| |by etrans].
  rewrite !app_assoc. by rewrite (Permutation_app_comm (tag e'.2 _)).
Qed.
Lemma wbb_cancel_tags h w t l : whole_weight w -> wbb_of h (tag (- w) t ++ tag w t ++ l) = wbb_of h l.
Proof.
  intros Hw. induction t as [|x t IH]; [done|]. cbn [tag map app]. fold (tag (- w) t) (tag w t).
  rewrite (wbb_perm h _ ((x, - w) :: (x, w) :: tag (- w) t ++ tag w t ++ l)); [by rewrite wbb_cancel|].
  constructor. symmetry. apply Permutation_middle.
Qed.
Lemma wss_inc h l x w : whole_weight w -> ss_incorporate (wss_of h l) x w = Ok (wss_of h ((x, w) :: l)).
Proof.
  intros Hw. unfold ss_incorporate. cbn [wss_of simple_of ss_N ss_sub ss_ins ss_del].
  change (Simple (weight_of l + w) (wbb_of h.1.1 (all_trials (fun t => t.1.1) l)) (wbb_of h.1.2 (all_trials (fun t => t.1.2) l)) (wbb_of h.2 (all_trials (fun t => t.2) l)))
    with (simple_of h (weight_of l + w) (all_trials (fun t => t.1.1) l) (all_trials (fun t => t.1.2) l) (all_trials (fun t => t.2) l)).
  rewrite corporate_diff by (try done; lia). unfold wss_of. by rewrite weight_cons, (Rplus_comm w).
Qed.
Definition ss_wlawful : wlawful ss_incorporate whole_weight.
Proof.
  refine {| wl_hyp := (R * R) * (R * R) * (R * R); wl_of := wss_of; wl_adm := fun _ => True |}.
  - intros h l l' HP. unfold wss_of. rewrite (weight_perm _ _ HP). apply simple_perm; by apply all_trials_perm.
  - intros h l x w s' Hw _. rewrite wss_inc by done. split; [intros [= <-]; done|by intros [_ ->]].
  - intros h l x w Hw _ _. rewrite wss_inc by by apply whole_opp. unfold wss_of, simple_of. rewrite !weight_cons. f_equal.
    unfold all_trials. cbn [map concat fst snd]. rewrite !wbb_cancel_tags by done. f_equal. lra.
Defined.

(** What the trials of one pair are. *)
Definition count_pieces (f : piece -> bool) (ps : list piece) : nat := length (filter (fun p => f p = true) ps).
Definition is_ins (p : piece) : bool := match p with Ins _ => true | _ => false end.
Definition is_del (p : piece) : bool := match p with Del _ => true | _ => false end.
Definition is_sub (p : piece) : bool := match p with Sub _ _ => true | _ => false end.
Definition is_mat (p : piece) : bool := match p with Mat _ => true | _ => false end.
Record diff_facts (clean dirty : text) (t : trials) : Prop := {
  df_ins : occurrences true t.1.2 = (length dirty - length clean)%nat;
  df_del : occurrences true t.2 = (length clean - length dirty)%nat;
  df_del_trials : length t.2 = length clean;
  df_sub_trials : length t.1.1 = Nat.min (length clean) (length dirty);
  df_ins_stops : occurrences false t.1.2 = length clean \/ occurrences false t.1.2 = S (length clean);
  df_align : exists ps, aligns ps clean dirty /\ edits ps = (occurrences true t.1.1 + occurrences true t.1.2 + occurrences true t.2)%nat }.
Lemma occ_replicate (x y : bool) n : occurrences x (replicate n y) = if decide (y = x) then n else 0%nat.
Proof. induction n as [|n IH]; cbn [replicate]; [by destruct (decide _)|]. rewrite occurrences_cons, IH. by destruct (decide (y = x)). Qed.
Lemma occ_app (x : bool) l l' : occurrences x (l ++ l') = (occurrences x l + occurrences x l')%nat.
Proof. unfold occurrences. by rewrite filter_app, app_length. Qed.
Lemma split_last (l : text) x : last l = Some x -> l = take (length l - 1) l ++ [x].
Proof.
  intros H. destruct l as [|y l _] using rev_ind; [done|]. rewrite last_snoc in H. injection H as ->. rewrite app_length. cbn [length].
  rewrite Nat.add_sub. by rewrite take_app.
Qed.
Lemma aligns_snoc_mat ps c s1 s2 : aligns ps s1 s2 -> aligns (ps ++ [Mat c]) (s1 ++ [c]) (s2 ++ [c]).
Proof.
  intros (H1 & H2 & H3). split_and!; [rewrite lefts_app, H1; done|rewrite rights_app, H2; done|]. apply Forall_app. split; [done|]. by apply Forall_singleton.
Qed.
Lemma aligns_dels s : aligns (map Del s) s [].
Proof. pose proof (some_alignment s []) as H. cbn in H. by rewrite app_nil_r in H. Qed.
Lemma edits_dels s : edits (map Del s) = length s.
Proof. induction s as [|c s IH]; [done|]. cbn. f_equal. exact IH. Qed.
Lemma aligns_inss s : aligns (map Ins s) [] s.
Proof. exact (some_alignment [] s). Qed.
Lemma edits_inss s : edits (map Ins s) = length s.
Proof. induction s as [|c s IH]; [done|]. cbn. f_equal. exact IH. Qed.
Lemma occ_nil (x : bool) : occurrences x [] = 0%nat.
Proof. done. Qed.
Ltac bools := cbn [length edits fst snd add_trials app]; rewrite ?occurrences_cons, ?occ_nil, ?occ_replicate, ?replicate_length; repeat first [rewrite decide_True by done | rewrite decide_False by done]; cbn [length] in *; lia.
Lemma diff_spec fuel : forall clean dirty, (length clean + length dirty < fuel)%nat -> diff_facts clean dirty (diff fuel clean dirty).
Proof.
  induction fuel as [|fuel IH]; intros clean dirty Hf; [lia|]. cbn [diff].
  destruct clean as [|c clean]; destruct dirty as [|e dirty].
  - split; cbn; [done|done|done|done|by right|]. exists []. by split_and!.
  - split; cbn [fst snd]; try bools.
    exists (map Ins (e :: dirty)). split; [apply aligns_inss|]. rewrite edits_inss. bools.
  - split; cbn [fst snd]; try bools.
    exists (map Del (c :: clean)). split; [apply aligns_dels|]. rewrite edits_dels. bools.
  - cbn [length] in Hf. destruct (ceqb c e) eqn:Ec; [|destruct (bool_decide_reflect (last (c :: clean) = last (e :: dirty))) as [El|El];
      [|destruct (Nat.ltb_spec (length (c :: clean)) (length (e :: dirty))) as [Hl|Hl]; [|destruct (Nat.ltb_spec (length (e :: dirty)) (length (c :: clean))) as [Hl'|Hl']]]].
    + destruct (IH clean dirty) as [F1 F2 F3 F4 F5 (ps & Ha & He)]; [lia|]. apply ceqb_iff in Ec as <-.
      split; cbn [add_trials fst snd app length]; try bools.
      exists (Mat c :: ps). split; [by apply (aligns_cons (Mat c))|]. unfold edits in He |- *. cbn [foldr]. bools.
    + destruct (last (c :: clean)) as [z|] eqn:Ez; [|by apply last_None in Ez]. symmetry in El.
      pose proof (split_last _ _ Ez) as Hc. pose proof (split_last _ _ El) as Hd.
      set (clean' := take (length (c :: clean) - 1) (c :: clean)) in *. set (dirty' := take (length (e :: dirty) - 1) (e :: dirty)) in *.
      assert (length clean' = length clean) as L1 by (unfold clean'; rewrite take_length; cbn [length]; lia).
      assert (length dirty' = length dirty) as L2 by (unfold dirty'; rewrite take_length; cbn [length]; lia).
      destruct (IH clean' dirty') as [F1 F2 F3 F4 F5 (ps & Ha & He)]; [lia|]. rewrite L1, L2 in *.
      split; cbn [add_trials fst snd app length]; try bools.
      exists (ps ++ [Mat z]). split; [rewrite Hc, Hd; by apply aligns_snoc_mat|]. rewrite edits_snoc. bools.
    + destruct (IH (c :: clean) dirty) as [F1 F2 F3 F4 F5 (ps & Ha & He)]; [cbn [length]; lia|]. cbn [length] in *.
      split; cbn [add_trials fst snd app length]; try bools.
      exists (Ins e :: ps). split; [by apply (aligns_cons (Ins e))|]. unfold edits in He |- *. cbn [foldr]. bools.
    + destruct (IH clean (e :: dirty)) as [F1 F2 F3 F4 F5 (ps & Ha & He)]; [cbn [length]; lia|]. cbn [length] in *.
      split; cbn [add_trials fst snd app length]; try bools.
      exists (Del c :: ps). split; [by apply (aligns_cons (Del c))|]. unfold edits in He |- *. cbn [foldr]. bools.
    + destruct (IH clean dirty) as [F1 F2 F3 F4 F5 (ps & Ha & He)]; [lia|]. cbn [length] in *.
      assert (c <> e) as Hce by (intros ->; rewrite (proj2 (ceqb_iff e e) eq_refl) in Ec; done).
      split; cbn [add_trials fst snd app length]; try bools.
      exists (Sub c e :: ps). split; [by apply (aligns_cons (Sub c e))|]. unfold edits in He |- *. cbn [foldr]. bools.
Qed.
Lemma diff_same s : forall fuel, (length s < fuel)%nat -> diff fuel s s = (replicate (length s) false, replicate (S (length s)) false, replicate (length s) false).
Proof.
  induction s as [|c s IH]; intros [|fuel] Hf; try (cbn in Hf; lia); [done|]. cbn [diff]. rewrite (proj2 (ceqb_iff c c) eq_refl).
  rewrite IH by (cbn in Hf; lia). done.
Qed.

(** ** Tables of categorical distributions: CategoricalEmission and Bigram *)
Definition wrow (i : nat) (P : list ((Z * Z) * R)) : list (Z * R) := map (fun e => (e.1.2, e.2)) (filter (fun e => e.1.1 = Z.of_nat i) P).
Definition wrows (k : nat) (h : nat -> R) (P : list ((Z * Z) * R)) : list dc := map (fun i => wdc_of k (h i) (wrow i P)) (seq 0 k).
Lemma wrows_length k h P : length (wrows k h P) = k.
Proof. unfold wrows. by rewrite map_length, seq_length. Qed.
Lemma wrows_lookup k h P i : (i < k)%nat -> wrows k h P !! i = Some (wdc_of k (h i) (wrow i P)).
Proof. intros Hi. unfold wrows. rewrite list_lookup_fmap, lookup_seq_lt by done. done. Qed.
Lemma wrows_perm k h P P' : P ≡ₚ P' -> wrows k h P = wrows k h P'.
Proof. intros HP. unfold wrows. apply map_ext. intros i. apply (wl_perm _ _ (dc_wlawful k)). unfold wrow. by rewrite HP. Qed.
Lemma wrow_cons i e P : wrow i (e :: P) = if decide (e.1.1 = Z.of_nat i) then (e.1.2, e.2) :: wrow i P else wrow i P.
Proof. unfold wrow. rewrite filter_cons. by destruct (decide _). Qed.
Lemma wrows_insert k h P x y w : (x < k)%nat -> <[x := wdc_of k (h x) ((y, w) :: wrow x P)]> (wrows k h P) = wrows k h (((Z.of_nat x, y), w) :: P).
Proof.
  intros Hx. apply list_eq. intros i. destruct (decide (i < k)%nat) as [Hi|Hi].
  - rewrite (wrows_lookup k h (_ :: _)) by done. rewrite wrow_cons. cbn [fst snd]. destruct (decide (x = i)) as [<-|Hne].
    + rewrite list_lookup_insert by by rewrite wrows_length. by rewrite decide_True.
    + rewrite list_lookup_insert_ne by done. rewrite decide_False by (by intros ?%Nat2Z.inj). by apply wrows_lookup.
  - rewrite !lookup_ge_None_2; [done|rewrite wrows_length; lia|rewrite insert_length, wrows_length; lia].
Qed.
Definition wcg_of (k : nat) (h : nat -> R) (l : list ((Z * Z) * R)) : categ := Categ (weight_of l) (wrows k h l).
Lemma wcg_inc k h l x w s' : cg_incorporate (wcg_of k h l) x w = Ok s' <-> (in_cats k x.1 /\ in_cats k x.2) /\ s' = wcg_of k h ((x, w) :: l).
Proof.
  unfold cg_incorporate, cg_row. cbn [wcg_of cg_dists cg_N]. destruct (bool_decide_reflect (0 <= x.1)%Z) as [H0|H0]; cbn [obind]; [|split; [done|intros [[[? _] _] _]; lia]].
  destruct (decide (Z.to_nat x.1 < k)%nat) as [Hk|Hk].
  2:{ rewrite lookup_ge_None_2 by (rewrite wrows_length; lia). cbn. split; [done|]. intros [[[_ ?] _] _]. unfold in_cats in *. lia. }
  rewrite wrows_lookup by done. cbn [idx_ obind].
  assert (<[Z.to_nat x.1 := wdc_of k (h (Z.to_nat x.1)) ((x.2, w) :: wrow (Z.to_nat x.1) l)]> (wrows k h l) = wrows k h ((x, w) :: l)) as HI.
  { rewrite wrows_insert by done. rewrite Z2Nat.id by done. by destruct x. }
  split.
  - intros H. apply obind_Ok in H as (d & Hd & [= <-]). apply wdc_inc in Hd as [Hc ->]. split; [split; [unfold in_cats; lia|done]|].
    unfold wcg_of. by rewrite weight_cons, (Rplus_comm w), HI.
  - intros [[_ Hc] ->]. rewrite (proj2 (wdc_inc _ _ _ _ _ _) (conj Hc eq_refl)). cbn [obind]. unfold wcg_of. by rewrite weight_cons, (Rplus_comm w), HI.
Qed.
Lemma cg_incorporate_inverse c x w c' : cg_incorporate c x w = Ok c' -> cg_incorporate c' x (- w) = Ok c.
Proof.
  unfold cg_incorporate, cg_row. destruct (bool_decide (0 <= x.1)%Z); [|done]. intros H. apply obind_Ok in H as ([i d] & Hd & H).
  apply obind_Ok in Hd as (d0 & Hd & E). apply idx_Ok in Hd. injection E as <- ->. apply obind_Ok in H as (d' & Hi & [= <-]).
  cbn [cg_dists cg_N]. rewrite list_lookup_insert by (by eapply lookup_lt_Some). cbn [obind idx_].
  rewrite (dc_incorporate_inverse _ _ _ _ Hi). cbn [obind]. rewrite list_insert_insert, list_insert_id by done.
  destruct c as [n ds]. cbn. do 2 f_equal. lra.
Qed.
Definition cg_wlawful (k : nat) : wlawful cg_incorporate any_weight.
Proof.
  refine {| wl_hyp := nat -> R; wl_of := wcg_of k; wl_adm := fun x => in_cats k x.1 /\ in_cats k x.2 |}.
  - intros h l l' HP. unfold wcg_of. by rewrite (weight_perm _ _ HP), (wrows_perm _ _ _ _ HP).
  - intros h l x w s' _ _. apply wcg_inc.
  - intros h l x w _ _ Hx. apply cg_incorporate_inverse. by apply wcg_inc.
Defined.

(** Bigram *)
Definition zpair (p : nat * nat) : Z * Z := (Z.of_nat p.1, Z.of_nat p.2).
Definition wpairs (mn mx : Z) (l : list (String.string * R)) : list ((Z * Z) * R) := concat (map (fun e => map (fun p => (zpair p, e.2)) (trans mn mx e.1)) l).
Definition wbg_of (ml : nat) (mn mx : Z) (a : R) (l : list (String.string * R)) : bigram :=
  Bigram_ a ml mn mx (wrows (S (num_of mn mx)) (fun _ => a) (wpairs mn mx l)) (weight_of l).
Lemma winc_pair k h P p w : pair_ok k p -> bg_inc_pair w (wrows k h P) p = Ok (wrows k h ((zpair p, w) :: P)).
Proof.
  intros [H1 H2]. unfold bg_inc_pair. rewrite wrows_lookup by done. cbn [obind idx_].
  rewrite (proj2 (wdc_inc k _ _ _ _ _) (conj (conj (Nat2Z.is_nonneg p.2) (proj1 (Nat2Z.inj_lt _ _) H2)) eq_refl)). cbn [obind].
  by rewrite wrows_insert.
Qed.
Lemma winc_pairs k h w Q P : Forall (pair_ok k) Q -> foldM (bg_inc_pair w) (wrows k h P) Q = Ok (wrows k h (map (fun p => (zpair p, w)) Q ++ P)).
Proof.
  intros H. revert P. induction H as [|p Q Hp HQ IH]; intros P; [done|]. cbn [foldM]. rewrite winc_pair by done. cbn [obind]. rewrite IH. f_equal.
  apply wrows_perm. cbn [map app]. by rewrite Permutation_middle.
Qed.
Lemma pairs_inverse w Q : forall ds ds', foldM (bg_inc_pair w) ds Q = Ok ds' -> foldM (bg_inc_pair (- w)) ds' (rev Q) = Ok ds.
Proof.
  induction Q as [|p Q IH]; intros ds ds' H; cbn [foldM] in H; [injection H as <-; done|].
  apply obind_Ok in H as (d1 & H1 & H). cbn [rev]. rewrite foldM_app. rewrite (IH _ _ H). cbn [obind foldM]. by rewrite (inc_pair_inverse _ _ _ _ H1).
Qed.
Lemma wpairs_perm mn mx l l' : l ≡ₚ l' -> wpairs mn mx l ≡ₚ wpairs mn mx l'.
Proof.
  unfold wpairs. induction 1 as [|e l l' _ IH|e e' l|l1 l2 l3 _ IH1 _ IH2]; cbn [map concat]; [done|by rewrite IH| |by etrans].
  rewrite !app_assoc. by rewrite (Permutation_app_comm (map _ (trans mn mx e'.1))).
Qed.
Lemma wbg_inc ml mn mx a l x w s' : bg_incorporate (wbg_of ml mn mx a l) x w = Ok s' <-> bg_adm ml mn mx x /\ s' = wbg_of ml mn mx a ((x, w) :: l).
Proof.
  unfold bg_incorporate. cbn [wbg_of bg_max_length]. split.
  - destruct (_ && _) eqn:E; [done|]. apply max_test in E. intros H. apply obind_Ok in H as (inds & H & H'). apply string_to_indices_Ok in H as [Hc ->].
    cbn [wbg_of bg_min_char bg_max_char bg_dists] in *. split; [done|]. rewrite winc_pairs in H' by by apply trans_ok. injection H' as <-.
    unfold wbg_of, bg_set_dists. cbn [bg_alpha bg_max_length bg_min_char bg_max_char bg_N]. by rewrite weight_cons, (Rplus_comm w).
  - intros [[Hm Hc] ->]. rewrite (proj2 (max_test ml x) Hm).
    rewrite (proj2 (string_to_indices_Ok (wbg_of ml mn mx a l) x _)) by (split; [exact Hc|reflexivity]).
    cbn [obind bg_dists wbg_of]. rewrite winc_pairs by by apply trans_ok. cbn [obind].
    unfold wbg_of, bg_set_dists. cbn [bg_alpha bg_max_length bg_min_char bg_max_char bg_N]. by rewrite weight_cons, (Rplus_comm w).
Qed.
Lemma wrows_cancel k h w Q P : Forall (pair_ok k) Q ->
  wrows k h (map (fun p => (zpair p, - w)) Q ++ map (fun p => (zpair p, w)) Q ++ P) = wrows k h P.
Proof.
  intros HQ. induction HQ as [|p Q Hp HQ IH]; [done|]. cbn [map app].
  rewrite (wrows_perm _ _ _ ((zpair p, - w) :: (zpair p, w) :: map (fun p => (zpair p, - w)) Q ++ map (fun p => (zpair p, w)) Q ++ P)).
  2:{ constructor. symmetry. apply Permutation_middle. }
  pose proof (winc_pair k h (map (fun p => (zpair p, - w)) Q ++ map (fun p => (zpair p, w)) Q ++ P) p w Hp) as H1.
  pose proof (inc_pair_inverse _ _ _ _ H1) as H2. rewrite winc_pair in H2 by done. injection H2 as H2. by rewrite H2, IH.
Qed.
Definition bg_wlawful (ml : nat) (mn mx : Z) : wlawful bg_incorporate any_weight.
Proof.
  refine {| wl_hyp := R; wl_of := wbg_of ml mn mx; wl_adm := bg_adm ml mn mx |}.
  - intros h l l' HP. unfold wbg_of. rewrite (weight_perm _ _ HP). f_equal. apply wrows_perm. by apply wpairs_perm.
  - intros h l x w s' _ _. apply wbg_inc.
  - intros h l x w _ _ Hx. rewrite (proj2 (wbg_inc ml mn mx h ((x, w) :: l) x (- w) _) (conj Hx eq_refl)). f_equal. unfold wbg_of. rewrite !weight_cons.
    unfold wpairs. cbn [map concat fst snd]. rewrite wrows_cancel by (apply trans_ok; apply Hx). f_equal. lra.
Defined.
