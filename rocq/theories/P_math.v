From stdpp Require Import list sets gmap.
From Coq Require Import ZArith Reals Lra Lia.
From Verif Require Import M_base M_math S_math P_base.
Local Open Scope R_scope.

(** * Sums *)
Lemma Rsum_cons x l : Rsum (x :: l) = x + Rsum l.
Proof. done. Qed.
Lemma Rsum_nil : Rsum [] = 0.
Proof. done. Qed.
Global Arguments Rsum : simpl never.
Lemma Rsum_app l1 l2 : Rsum (l1 ++ l2) = Rsum l1 + Rsum l2.
Proof. induction l1 as [|x l1 IH]; simpl; rewrite ?Rsum_nil, ?Rsum_cons; [lra|]. rewrite IH. lra. Qed.

Lemma Rsum_perm l1 l2 : l1 ≡ₚ l2 -> Rsum l1 = Rsum l2.
Proof. induction 1; rewrite ?Rsum_nil, ?Rsum_cons in *; lra. Qed.

Lemma Rsum_nonneg l : Forall (fun x => 0 <= x) l -> 0 <= Rsum l.
Proof. induction 1; rewrite ?Rsum_nil, ?Rsum_cons in *; lra. Qed.

Lemma Rsum_scal c l : Rsum ((fun x => c * x) <$> l) = c * Rsum l.
Proof. induction l as [|x l IH]; csimpl; rewrite ?Rsum_cons; [rewrite ?Rsum_nil; lra|]. rewrite IH. lra. Qed.

(** * linspace *)
Lemma linspace_Ok start stop num :
  (2 <= num)%nat ->
  linspace start stop num true =
    Ok ((fun i : nat => start + (stop - start) / INR (num - 1) * INR i) <$> seq 0 num).
Proof.
  intros H. unfold linspace. destruct num as [|n]; [lia|].
  rewrite bool_decide_eq_false_2 by lia.
  f_equal. replace (Z.of_nat (S n) - 1)%Z with (Z.of_nat (S n - 1)) by lia.
  by rewrite <- INR_IZR_INZ.
Qed.

Lemma linspace_open_Ok start stop num :
  (1 <= num)%nat ->
  linspace start stop num false =
    Ok ((fun i : nat => start + (stop - start) / INR num * INR i) <$> seq 0 num).
Proof.
  intros H. unfold linspace. destruct num as [|n]; [lia|].
  rewrite bool_decide_eq_false_2 by lia.
  f_equal. rewrite Z.sub_0_r. by rewrite <- INR_IZR_INZ.
Qed.

Lemma linspace_point_bounds start stop num i :
  (2 <= num)%nat -> (i < num)%nat -> start <= stop ->
  start <= start + (stop - start) / INR (num - 1) * INR i <= stop.
Proof.
  intros Hn Hi Hs.
  assert (0 < INR (num - 1)) by (apply lt_0_INR; lia).
  assert (0 <= INR i) by apply pos_INR.
  assert (INR i <= INR (num - 1)) by (apply le_INR; lia).
  assert (0 <= (stop - start) / INR (num - 1)) as Hstep.
  { apply Rmult_le_pos; [lra|]. left. by apply Rinv_0_lt_compat. }
  split.
  - assert (0 <= (stop - start) / INR (num - 1) * INR i) by (apply Rmult_le_pos; lra). lra.
  - assert ((stop - start) / INR (num - 1) * INR i <= (stop - start) / INR (num - 1) * INR (num - 1)).
    { apply Rmult_le_compat_l; lra. }
    replace ((stop - start) / INR (num - 1) * INR (num - 1)) with (stop - start) in * by (field; lra).
    lra.
Qed.

Lemma log_linspace_Ok start stop num :
  (2 <= num)%nat ->
  log_linspace start stop num true =
    Ok ((fun i : nat => exp (ln start + (ln stop - ln start) / INR (num - 1) * INR i)) <$> seq 0 num).
Proof.
  intros H. unfold log_linspace. rewrite linspace_Ok by done. simpl.
  f_equal. by rewrite <- list_fmap_compose.
Qed.

Lemma log_linspace_length start stop num v :
  (2 <= num)%nat -> log_linspace start stop num true = Ok v -> length v = num.
Proof.
  intros Hn. rewrite log_linspace_Ok by done. intros [= <-]. by rewrite fmap_length, seq_length.
Qed.

Lemma linspace_lookup start stop num v i :
  (2 <= num)%nat -> linspace start stop num true = Ok v -> (i < num)%nat ->
  v !! i = Some (start + (stop - start) / INR (num - 1) * INR i).
Proof.
  intros Hn. rewrite linspace_Ok by done. intros [= <-] Hi.
  rewrite list_lookup_fmap, lookup_seq_lt by done. done.
Qed.

Lemma linspace_ends start stop num v :
  (2 <= num)%nat -> linspace start stop num true = Ok v ->
  v !! 0%nat = Some start /\ v !! (num - 1)%nat = Some stop.
Proof.
  intros Hn Hv. split; (erewrite linspace_lookup; [|done|done|lia]); f_equal.
  - simpl. lra.
  - assert (0 < INR (num - 1)) by (apply lt_0_INR; lia). field. lra.
Qed.

Lemma log_linspace_ends start stop num v :
  (2 <= num)%nat -> 0 < start -> 0 < stop -> log_linspace start stop num true = Ok v ->
  v !! 0%nat = Some start /\ v !! (num - 1)%nat = Some stop.
Proof.
  intros Hn H1 H2 Hv. unfold log_linspace in Hv.
  destruct (linspace _ _ num true) as [v'| | | | |] eqn:E; try done. simpl in Hv. injection Hv as <-.
  apply linspace_ends in E as [E1 E2]; [|done].
  rewrite !list_lookup_fmap, E1, E2. simpl. by rewrite !exp_ln.
Qed.

Lemma ln_le_mono x y : 0 < x -> x <= y -> ln x <= ln y.
Proof. intros Hx [Hlt| ->]; [left; by apply ln_increasing|lra]. Qed.
Lemma exp_le_mono x y : x <= y -> exp x <= exp y.
Proof. intros [Hlt| ->]; [left; by apply exp_increasing|lra]. Qed.

Lemma log_linspace_bounds start stop num v :
  (2 <= num)%nat -> 0 < start -> start <= stop ->
  log_linspace start stop num true = Ok v ->
  Forall (fun x => start <= x <= stop) v.
Proof.
  intros Hn H0 Hs. rewrite log_linspace_Ok by done. intros [= <-].
  apply Forall_fmap, Forall_forall. intros i Hi. apply elem_of_list_In, in_seq in Hi. simpl.
  pose proof (linspace_point_bounds (ln start) (ln stop) num i Hn ltac:(lia) (ln_le_mono _ _ H0 Hs)) as [H1 H2].
  apply exp_le_mono in H1. apply exp_le_mono in H2.
  rewrite exp_ln in H1 by done. rewrite (exp_ln stop) in H2 by lra. done.
Qed.

(** * max_element *)
Lemma lw_ltb_irrefl a : lw_ltb a a = false.
Proof. destruct a; simpl; [|done]. destruct (Rlt_dec r r); [lra|done]. Qed.
Lemma lw_ltb_asym b c : lw_ltb b c = true -> lw_ltb c b = false.
Proof.
  destruct b, c; simpl; try done; repeat (destruct Rlt_dec; simpl); try done; lra.
Qed.
Lemma lw_nlt_trans a b c : lw_ltb a b = false -> lw_ltb b c = false -> lw_ltb a c = false.
Proof.
  destruct a, b, c; simpl; try done; repeat (destruct Rlt_dec; simpl); try done; lra.
Qed.

Lemma max_element_from_spec best bestv l pre :
  pre !! best = Some bestv ->
  (forall y, y ∈ pre -> lw_ltb bestv y = false) ->
  exists x, (pre ++ l) !! (max_element_from best bestv (length pre) l) = Some x /\
    forall y, y ∈ pre ++ l -> lw_ltb x y = false.
Proof.
  revert best bestv pre. induction l as [|w l IH]; intros best bestv pre Hb Hpre; simpl.
  - exists bestv. rewrite app_nil_r. done.
  - destruct (lw_ltb bestv w) eqn:E.
    + destruct (IH (length pre) w (pre ++ [w])) as (x & Hx & Hall).
      * rewrite lookup_app_r by lia. by rewrite Nat.sub_diag.
      * intros y [Hy|Hy]%elem_of_app.
        -- apply Hpre in Hy. apply lw_nlt_trans with bestv; [|done].
           by apply lw_ltb_asym.
        -- apply elem_of_list_singleton in Hy as ->. apply lw_ltb_irrefl.
      * exists x. rewrite <- app_assoc in Hx, Hall. simpl in *.
        rewrite app_length in Hx. simpl in Hx. rewrite Nat.add_1_r in Hx. done.
    + destruct (IH best bestv (pre ++ [w])) as (x & Hx & Hall).
      * by apply lookup_app_l_Some.
      * intros y [Hy|Hy]%elem_of_app; [by apply Hpre|].
        by apply elem_of_list_singleton in Hy as ->.
      * exists x. rewrite <- app_assoc in Hx, Hall. simpl in *.
        rewrite app_length in Hx. simpl in Hx. rewrite Nat.add_1_r in Hx. done.
Qed.

Lemma max_element_index_spec l :
  l <> [] ->
  exists x, l !! max_element_index l = Some x /\ forall y, y ∈ l -> lw_ltb x y = false.
Proof.
  destruct l as [|w l]; [done|]. intros _.
  destruct (max_element_from_spec 0 w l [w]) as (x & Hx & Hall).
  - done.
  - intros y ->%elem_of_list_singleton. apply lw_ltb_irrefl.
  - exists x. split; [exact Hx|exact Hall].
Qed.

(** * logsumexp *)
Lemma lse_fold_offset k m off ws s :
  foldl (fun s (iw : nat * option R) =>
     if bool_decide (iw.1 = k) then s
     else match iw.2 with Some w => s + exp (w - m) | None => s end)
    s (zip (seq off (length ws)) ws)
  = s + Rsum ((fun iw : nat * option R => if bool_decide (iw.1 = k) then 0 else eexp iw.2 / exp m)
        <$> zip (seq off (length ws)) ws).
Proof.
  revert off s. induction ws as [|w ws IH]; intros off s; csimpl; [rewrite ?Rsum_nil; lra|].
  rewrite IH, Rsum_cons. simpl. destruct (bool_decide _); simpl; [lra|].
  destruct w; simpl; [|lra]. unfold Rminus. rewrite exp_plus, exp_Ropp. lra.
Qed.

Lemma lse_skip_none k off (ws : list (option R)) m : (k < off)%nat ->
  Rsum ((fun iw : nat * option R => if bool_decide (iw.1 = k) then 0 else eexp iw.2 / exp m)
        <$> zip (seq off (length ws)) ws) = Rsum (eexp <$> ws) / exp m.
Proof.
  revert off. induction ws as [|w ws IH]; intros off Hk; csimpl; [rewrite ?Rsum_nil; lra|].
  rewrite !Rsum_cons, IH by lia. simpl. rewrite bool_decide_eq_false_2 by lia. lra.
Qed.

Lemma lse_skip k off (ws : list (option R)) m :
  ws !! k = Some (Some m) ->
  Rsum ((fun iw : nat * option R => if bool_decide (iw.1 = (off + k)%nat) then 0 else eexp iw.2 / exp m)
        <$> zip (seq off (length ws)) ws) = Rsum (eexp <$> ws) / exp m - 1.
Proof.
  pose proof (exp_pos m).
  revert off k. induction ws as [|w ws IH]; intros off k Hk; [done|].
  destruct k as [|k]; simpl in Hk; csimpl; rewrite !Rsum_cons; simpl.
  - injection Hk as ->. rewrite Nat.add_0_r, bool_decide_eq_true_2 by done.
    rewrite (lse_skip_none off (S off) ws m) by lia. simpl. field. lra.
  - specialize (IH (S off) k Hk). rewrite bool_decide_eq_false_2 by lia.
    replace (off + S k)%nat with (S off + k)%nat by lia. rewrite IH. field. lra.
Qed.

Lemma logsumexp_spec ws :
  ws <> [] -> exists r, logsumexp ws = Ok r /\ eexp r = Rsum (eexp <$> ws).
Proof.
  intros Hne. destruct (max_element_index_spec ws Hne) as (x & Hx & Hmax).
  unfold logsumexp. rewrite Hx. simpl. destruct x as [m|].
  - eexists. split; [done|]. simpl. rewrite lse_fold_offset.
    pose proof (lse_skip _ 0 _ _ Hx) as E. simpl in E. rewrite E.
    assert (0 <= Rsum (eexp <$> ws) / exp m - 1) as Hpos.
    { rewrite <- E. apply Rsum_nonneg, Forall_fmap, Forall_forall. intros [i w] _. simpl.
      destruct (bool_decide _); [lra|]. apply Rmult_le_pos.
      - destruct w; simpl; [left; apply exp_pos|lra].
      - left. apply Rinv_0_lt_compat, exp_pos. }
    rewrite exp_plus, exp_ln by lra. pose proof (exp_pos m). field. lra.
  - exists None. split; [done|]. simpl.
    assert (Forall (fun w => w = None) ws) as HF.
    { apply Forall_forall. intros y Hy. specialize (Hmax y Hy). by destruct y. }
    clear -HF. induction HF as [|w ws -> _ IH]; csimpl; rewrite ?Rsum_cons; simpl; [rewrite ?Rsum_nil|]; lra.
Qed.

Lemma logsumexp_finite ws :
  (exists x, Some x ∈ ws) -> exists r, logsumexp ws = Ok (Some r) /\ exp r = Rsum (eexp <$> ws).
Proof.
  intros [x Hx]. destruct (logsumexp_spec ws) as (r & Hr & E); [by intros ->; set_solver|].
  destruct r as [r|]; [by exists r|]. exfalso. simpl in E.
  apply elem_of_list_split in Hx as (l1 & l2 & ->). rewrite fmap_app, Rsum_app in E.
  rewrite fmap_cons, Rsum_cons in E. simpl in E.
  assert (forall l, 0 <= Rsum (eexp <$> l)) as Hp.
  { intros l. apply Rsum_nonneg, Forall_fmap, Forall_forall. intros [w|] _; simpl; [left; apply exp_pos|lra]. }
  pose proof (Hp l1). pose proof (Hp l2). pose proof (exp_pos x). lra.
Qed.

Lemma log_normalize_spec ws :
  (exists x, Some x ∈ ws) ->
  exists vs, log_normalize ws = Ok vs /\ length vs = length ws /\ Rsum (eexp <$> vs) = 1 /\
    forall i w, ws !! i = Some w -> exists v, vs !! i = Some v /\ eexp v = eexp w / Rsum (eexp <$> ws).
Proof.
  intros H. destruct (logsumexp_finite ws H) as (r & Hr & E).
  unfold log_normalize. rewrite Hr. simpl. eexists. split; [done|].
  split; [by rewrite fmap_length|].
  assert (forall w, eexp (match w with Some w => Some (w - r) | None => None end) = / exp r * eexp w) as Hw.
  { intros [w|]; simpl; [|lra]. unfold Rminus. rewrite exp_plus, exp_Ropp. lra. }
  pose proof (exp_pos r).
  split.
  - rewrite <- list_fmap_compose.
    transitivity (Rsum ((fun x => / exp r * x) <$> (eexp <$> ws))).
    + f_equal. rewrite <- list_fmap_compose. apply list_fmap_ext. intros ? w _. apply Hw.
    + rewrite Rsum_scal, <- E. field. lra.
  - intros i w Hi. rewrite list_lookup_fmap, Hi. simpl. eexists. split; [done|].
    rewrite Hw, <- E. field. lra.
Qed.

Lemma log_choice_spec ws r :
  (exists x, Some x ∈ ws) -> exists i r', log_choice ws r = Ok (i, r') /\ (i < length ws)%nat.
Proof.
  intros H. destruct (log_normalize_spec ws H) as (vs & Hvs & Hlen & _).
  unfold log_choice. rewrite Hvs. simpl. rewrite Hlen.
  destruct (choose_index (length ws) r) as [i r'] eqn:E. exists i, r'. split; [done|].
  eapply choose_index_lt; [done|]. destruct H as [x Hx]. destruct ws; [set_solver|done].
Qed.

(** * product *)
Lemma cartesian_snoc {A} (lists : list (list A)) l :
  cartesian (lists ++ [l]) = cartesian lists ≫= (fun e => (fun f => e ++ [f]) <$> l).
Proof.
  induction lists as [|l0 lists IH]; simpl.
  - rewrite app_nil_r. induction l as [|x l IHl]; [done|]. simpl. by f_equal.
  - rewrite IH. clear IH. induction l0 as [|x l0 IHl]; simpl; [done|].
    rewrite bind_app. etransitivity; [apply (f_equal2 app); [reflexivity|exact IHl]|]. f_equal. clear IHl.
    generalize (cartesian lists). intros C. induction C as [|c C IHC]; [done|].
    rewrite fmap_cons, !bind_cons, fmap_app, IHC, <- list_fmap_compose. done.
Qed.

Lemma product_Ok {A} (lists : list (list A)) :
  lists <> [] -> product lists = Ok (cartesian lists).
Proof.
  intros Hne. unfold product.
  destruct (existsb _ lists) eqn:E.
  - f_equal. apply existsb_exists in E as (l & Hl & He). destruct l; [|done].
    apply elem_of_list_In in Hl. clear -Hl.
    induction lists as [|l0 lists IH]; [set_solver|]. simpl.
    apply elem_of_cons in Hl as [<-|Hl]; [done|]. rewrite <- (IH Hl).
    induction l0; simpl; auto.
  - destruct lists as [|l0 rest]; [done|]. f_equal. clear.
    assert (forall pre rest', foldl (fun (result : list (list A)) (l : list A) =>
       result ≫= (fun e => (fun f => e ++ [f]) <$> l)) (cartesian pre) rest' = cartesian (pre ++ rest')) as H.
    { intros pre rest'. revert pre. induction rest' as [|l rest' IH]; intros pre; simpl; [by rewrite app_nil_r|].
      rewrite <- cartesian_snoc, IH, <- app_assoc. done. }
    specialize (H [l0] rest). simpl app in H. rewrite <- H. f_equal.
Qed.

Lemma elem_of_cartesian {A} (lists : list (list A)) tup :
  tup ∈ cartesian lists <-> Forall2 (fun x l => x ∈ l) tup lists.
Proof.
  revert tup. induction lists as [|l lists IH]; intros tup; simpl.
  - rewrite elem_of_list_singleton. split; [intros ->; constructor|by inversion 1].
  - rewrite elem_of_list_bind. split.
    + intros (e & (r & -> & Hr)%elem_of_list_fmap & He). constructor; [done|]. by apply IH.
    + inversion 1; subst. eexists. split; [|done]. apply elem_of_list_fmap. eexists; split; [done|]. by apply IH.
Qed.

Lemma length_cartesian {A} (lists : list (list A)) :
  length (cartesian lists) = foldr Nat.mul 1%nat (length <$> lists).
Proof.
  induction lists as [|l lists IH]; [done|]. csimpl. rewrite <- IH. clear IH.
  induction l as [|x l IHl]; [done|]. csimpl. by rewrite app_length, fmap_length, IHl.
Qed.

Lemma NoDup_cartesian {A} (lists : list (list A)) :
  Forall NoDup lists -> NoDup (cartesian lists).
Proof.
  induction 1 as [|l lists Hl _ IH]; simpl; [apply NoDup_singleton|].
  induction Hl as [|x l Hx Hl IHl]; simpl; [constructor|].
  apply NoDup_app. split; [by apply NoDup_fmap_2; [intros ???; congruence|]|].
  split; [|done].
  intros t (r & -> & _)%elem_of_list_fmap (e & (r2 & Heq & _)%elem_of_list_fmap & He)%elem_of_list_bind.
  by injection Heq as -> ->.
Qed.

(** * Statements used by T_math.v *)
Lemma eexp_inj a b : eexp a = eexp b -> a = b.
Proof.
  destruct a as [a|], b as [b|]; simpl; intros H; [by apply exp_inv in H as ->| | |done].
  - pose proof (exp_pos a). lra.
  - pose proof (exp_pos b). lra.
Qed.

Lemma logsumexp_perm ws ws' r r' :
  ws ≡ₚ ws' -> logsumexp ws = Ok r -> logsumexp ws' = Ok r' -> r = r'.
Proof.
  intros Hp H1 H2. destruct (decide (ws = [])) as [->|Hne]; [done|].
  assert (ws' <> []) as Hne' by (intros ->; by apply Permutation_nil_r in Hp).
  destruct (logsumexp_spec ws Hne) as (x & Hx & Ex).
  destruct (logsumexp_spec ws' Hne') as (y & Hy & Ey).
  apply eexp_inj. assert (r = x) as -> by congruence. assert (r' = y) as -> by congruence.
  rewrite Ex, Ey. apply Rsum_perm. by rewrite Hp.
Qed.

Lemma logsumexp_shift (ws : list R) (d : R) : ws <> [] ->
  exists r, logsumexp (Some <$> ws) = Ok (Some r) /\
            logsumexp ((fun w => Some (w + d)) <$> ws) = Ok (Some (r + d)).
Proof.
  intros Hne. destruct ws as [|w0 ws0] eqn:Ews; [done|]. rewrite <- Ews in *. 
  destruct (logsumexp_finite (Some <$> ws)) as (r & Hr & Er).
  { exists w0. rewrite Ews. left. }
  destruct (logsumexp_finite ((fun w => Some (w + d)) <$> ws)) as (r2 & Hr2 & Er2).
  { exists (w0 + d). rewrite Ews. left. }
  exists r. split; [done|]. rewrite Hr2. do 2 f_equal. apply exp_inv.
  rewrite Er2, exp_plus, Er, Rmult_comm, <- Rsum_scal. f_equal.
  rewrite <- !list_fmap_compose. apply list_fmap_ext. intros ? w _. simpl.
  rewrite exp_plus. lra.
Qed.

Lemma product_spec {A} (lists : list (list A)) : lists <> [] ->
  product lists = Ok (cartesian lists) /\
  length (cartesian lists) = foldr Nat.mul 1%nat (length <$> lists) /\
  (forall tup, tup ∈ cartesian lists <-> Forall2 (fun x l => x ∈ l) tup lists) /\
  (Forall NoDup lists -> NoDup (cartesian lists)).
Proof.
  intros H. split; [by apply product_Ok|]. split; [apply length_cartesian|].
  split; [apply elem_of_cartesian|apply NoDup_cartesian].
Qed.

Lemma linspace_spec start stop num : (2 <= num)%nat ->
  exists v, linspace start stop num true = Ok v /\ length v = num /\
    v !! 0%nat = Some start /\ v !! (num - 1)%nat = Some stop /\
    (start <= stop -> Forall (fun x => start <= x <= stop) v) /\
    (start < stop -> forall i x y, v !! i = Some x -> v !! S i = Some y -> x < y) /\
    (forall i x y, v !! i = Some x -> v !! S i = Some y -> y - x = (stop - start) / INR (num - 1)).
Proof.
  intros Hn. eexists. split; [by apply linspace_Ok|]. split; [by rewrite fmap_length, seq_length|].
  pose proof (linspace_ends _ _ _ _ Hn (linspace_Ok start stop num Hn)) as [H1 H2].
  assert (0 < INR (num - 1)) as Hpos by (apply lt_0_INR; lia).
  assert (forall i x y, ((fun i : nat => start + (stop - start) / INR (num - 1) * INR i) <$> seq 0 num) !! i = Some x ->
     ((fun i : nat => start + (stop - start) / INR (num - 1) * INR i) <$> seq 0 num) !! S i = Some y ->
     y - x = (stop - start) / INR (num - 1)) as Hstep.
  { intros i x y Hx Hy. pose proof (lookup_lt_Some _ _ _ Hy) as Hlt. rewrite fmap_length, seq_length in Hlt.
    pose proof (linspace_lookup _ _ _ _ i Hn (linspace_Ok start stop num Hn) ltac:(lia)) as Hx'.
    pose proof (linspace_lookup _ _ _ _ (S i) Hn (linspace_Ok start stop num Hn) ltac:(lia)) as Hy'.
    rewrite Hx in Hx'. rewrite Hy in Hy'. apply Some_inj in Hx' as ->. apply Some_inj in Hy' as ->.
    rewrite S_INR. lra. }
  repeat split; try done.
  - intros Hs. apply Forall_fmap, Forall_forall. intros i Hi. apply elem_of_list_In, in_seq in Hi.
    apply linspace_point_bounds; [done|lia|done].
  - intros Hs i x y Hx Hy. specialize (Hstep i x y Hx Hy).
    assert (0 < (stop - start) / INR (num - 1)) by (apply Rdiv_lt_0_compat; lra). lra.
Qed.

Lemma linspace_open_spec start stop num : (1 <= num)%nat ->
  exists v, linspace start stop num false = Ok v /\ length v = num /\ v !! 0%nat = Some start /\
    (start < stop -> Forall (fun x => start <= x < stop) v).
Proof.
  intros Hn. eexists. split; [by apply linspace_open_Ok|]. split; [by rewrite fmap_length, seq_length|].
  split.
  - rewrite list_lookup_fmap, lookup_seq_lt by lia. simpl fmap. f_equal. change (0 + 0)%nat with 0%nat. simpl. lra.
  - intros Hs. apply Forall_fmap, Forall_forall. intros i Hi. apply elem_of_list_In, in_seq in Hi. simpl.
    assert (0 < INR num) by (apply lt_0_INR; lia).
    assert (0 <= INR i) by apply pos_INR.
    assert (INR i < INR num) by (apply lt_INR; lia).
    assert (0 < (stop - start) / INR num) as Hd by (apply Rdiv_lt_0_compat; lra).
    split.
    + assert (0 <= (stop - start) / INR num * INR i) by (apply Rmult_le_pos; lra). lra.
    + assert ((stop - start) / INR num * INR i < (stop - start) / INR num * INR num) as Hlt
        by (apply Rmult_lt_compat_l; lra).
      replace ((stop - start) / INR num * INR num) with (stop - start) in Hlt by (field; lra). lra.
Qed.

Lemma log_linspace_spec start stop num : (2 <= num)%nat -> 0 < start -> start <= stop ->
  exists v, log_linspace start stop num true = Ok v /\ length v = num /\
    v !! 0%nat = Some start /\ v !! (num - 1)%nat = Some stop /\
    Forall (fun x => start <= x <= stop) v /\
    (start < stop -> forall i x y, v !! i = Some x -> v !! S i = Some y -> x < y).
Proof.
  intros Hn H0 Hs.
  destruct (linspace_spec (ln start) (ln stop) num Hn) as (v & Hv & Hlen & _ & _ & _ & Hmono & _).
  assert (log_linspace start stop num true = Ok (exp <$> v)) as Hl by (unfold log_linspace; by rewrite Hv).
  exists (exp <$> v). split; [done|]. split; [by rewrite fmap_length|].
  destruct (log_linspace_ends start stop num _ Hn H0 ltac:(lra) Hl) as [H1 H2].
  repeat split; try done.
  - by eapply log_linspace_bounds.
  - intros Hlt i x y Hx Hy. rewrite list_lookup_fmap in Hx, Hy.
    destruct (v !! i) as [x'|] eqn:Ex; [|done]. destruct (v !! S i) as [y'|] eqn:Ey; [|done].
    simpl in Hx, Hy. injection Hx as <-. injection Hy as <-. apply exp_increasing.
    eapply Hmono; [|done|done]. by apply ln_increasing.
Qed.
