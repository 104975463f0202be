(** Non-conjugate distributions hold exactly their values; Skellam is lawful. *)
From stdpp Require Import gmap list.
From Coq Require Import ZArith Reals Lra Lia.
From Verif Require Import M_base M_math M_dist M_distributions M_nonconj S_math S_dist S_relation S_nonconj
  P_base P_math P_dist P_dirichlet.
Local Open Scope R_scope.

Section nonconj.
Context {T H L : Type} `{Countable T}.
Context (lp : L -> T -> R) (prior : H -> rng -> L * rng) (unif : rng -> R * rng).

(** The map of the weights of the values [l]. *)
Definition seen_of (l : list T) : gmap T R :=
  list_to_map ((fun x => (x, INR (occurrences x l))) <$> remove_dups l).
Lemma seen_keys (l d : list T) : ((fun x => (x, INR (occurrences x l))) <$> d).*1 = d.
Proof. induction d as [|x d IH]; [done|]. rewrite !fmap_cons. simpl. by f_equal. Qed.
Lemma seen_of_lookup l x :
  seen_of l !! x = if decide (x ∈ l) then Some (INR (occurrences x l)) else None.
Proof.
  unfold seen_of. case_decide as Hx.
  - apply elem_of_list_to_map_1.
    + rewrite seen_keys. apply NoDup_remove_dups.
    + apply elem_of_list_fmap. exists x. by rewrite elem_of_remove_dups.
  - apply not_elem_of_list_to_map_1. rewrite seen_keys. by rewrite elem_of_remove_dups.
Qed.
Lemma occurrences_zero (l : list T) x : x ∉ l -> occurrences x l = 0%nat.
Proof.
  intros Hx. unfold occurrences. destruct (filter (fun y => y = x) l) as [|y l'] eqn:E; [done|].
  assert (y ∈ filter (fun y => y = x) l) as Hf by (rewrite E; by left). apply elem_of_list_filter in Hf as [-> Hf]. done.
Qed.
Lemma occurrences_pos (l : list T) x : x ∈ l -> (0 < occurrences x l)%nat.
Proof.
  intros Hx. unfold occurrences. destruct (filter (fun y => y = x) l) eqn:E; [|simpl; lia].
  assert (x ∈ filter (fun y => y = x) l) as Hf by (by apply elem_of_list_filter). rewrite E in Hf. by apply elem_of_nil in Hf.
Qed.
Lemma seen_of_default l x : default 0 (seen_of l !! x) = INR (occurrences x l).
Proof.
  rewrite seen_of_lookup. case_decide; [done|]. by rewrite occurrences_zero.
Qed.
Lemma seen_of_perm l l' : l ≡ₚ l' -> seen_of l = seen_of l'.
Proof.
  intros HP. apply map_eq. intros x. rewrite !seen_of_lookup, (occurrences_perm _ _ _ HP).
  destruct (decide (x ∈ l)) as [Hx|Hx]; rewrite HP in Hx; by destruct (decide (x ∈ l')).
Qed.

Definition nc_of (h : H) (t : L) (l : list T) : nonconj T H L := NC h t (seen_of l) (INR (length l)).

Lemma nc_inc_of h t l x : nc_incorporate (nc_of h t l) x 1 = nc_of h t (x :: l).
Proof.
  unfold nc_incorporate, nc_of. cbn [nc_hyper nc_latents nc_seen nc_N]. rewrite seen_of_default.
  f_equal; [|change (length (x :: l)) with (S (length l)); by rewrite S_INR].
  destruct (Req_EM_T _ _) as [E|_]; [exfalso; pose proof (pos_INR (occurrences x l)); lra|].
  apply map_eq. intros y. rewrite seen_of_lookup. destruct (decide (y = x)) as [->|Hne].
  - rewrite lookup_insert. rewrite decide_True by (by left). f_equal. rewrite occurrences_cons, decide_True by done.
    by rewrite <- S_INR.
  - rewrite lookup_insert_ne by done. rewrite seen_of_lookup, occurrences_cons. rewrite (decide_False (P := x = y)) by done. simpl.
    destruct (decide (y ∈ l)) as [Hy|Hy]; [rewrite decide_True by (by right); done|rewrite decide_False; [done|]].
    by intros [?|?]%elem_of_cons.
Qed.
Lemma nc_uninc_of h t l x : nc_unincorporate (nc_of h t (x :: l)) x = nc_of h t l.
Proof.
  unfold nc_unincorporate, nc_incorporate, nc_of. cbn [nc_hyper nc_latents nc_seen nc_N]. rewrite seen_of_default.
  f_equal; [|change (length (x :: l)) with (S (length l)); rewrite S_INR; lra].
  rewrite occurrences_cons, decide_True by done. change (1 + occurrences x l)%nat with (S (occurrences x l)). rewrite S_INR.
  replace (INR (occurrences x l) + 1 + -1) with (INR (occurrences x l)) by lra.
  apply map_eq. intros y. rewrite (seen_of_lookup l).
  destruct (Req_EM_T _ _) as [E|E].
  - assert (x ∉ l) as Hx. { intros Hx%occurrences_pos. apply lt_INR in Hx. simpl in Hx. lra. }
    destruct (decide (y = x)) as [->|Hne].
    + rewrite lookup_delete. by rewrite decide_False.
    + rewrite lookup_delete_ne by done. rewrite seen_of_lookup, occurrences_cons, (decide_False (P := x = y)) by done. simpl.
      destruct (decide (y ∈ l)) as [Hy|Hy]; [rewrite decide_True by (by right); done|rewrite decide_False; [done|]].
      by intros [?|?]%elem_of_cons.
  - assert (x ∈ l) as Hx. { destruct (decide (x ∈ l)) as [|Hn]; [done|]. apply occurrences_zero in Hn. rewrite Hn in E. done. }
    destruct (decide (y = x)) as [->|Hne].
    + rewrite lookup_insert. by rewrite decide_True.
    + rewrite lookup_insert_ne by done. rewrite seen_of_lookup, occurrences_cons, (decide_False (P := x = y)) by done. simpl.
      destruct (decide (y ∈ l)) as [Hy|Hy]; [rewrite decide_True by (by right); done|rewrite decide_False; [done|]].
      by intros [?|?]%elem_of_cons.
Qed.

(** The score is the sum over the values. *)
Definition wsum (t : L) (m : gmap T R) : R := map_fold (fun x w score => score + lp t x * w) 0 m.
Lemma wsum_insert t m x c : m !! x = None -> wsum t (<[x := c]> m) = wsum t m + lp t x * c.
Proof. intros Hx. unfold wsum. rewrite map_fold_insert_L; [done| |done]. intros. lra. Qed.
Lemma wsum_delete t m x c : m !! x = Some c -> wsum t m = wsum t (delete x m) + lp t x * c.
Proof. intros Hx. rewrite <- (insert_delete m x c Hx) at 1. by rewrite wsum_insert by apply lookup_delete. Qed.
Lemma nc_score_incorporate (s : nonconj T H L) x w :
  nc_score lp (nc_incorporate s x w) = nc_score lp s + lp (nc_latents s) x * w.
Proof.
  unfold nc_score, nc_incorporate. cbn [nc_latents nc_seen]. fold (wsum (nc_latents s) (nc_seen s)).
  set (t := nc_latents s). set (m := nc_seen s). clearbody t m.
  fold (wsum t (if Req_EM_T (default 0 (m !! x) + w) 0 then delete x m else <[x := default 0 (m !! x) + w]> m)).
  destruct (m !! x) as [c|] eqn:E.
  - change (default 0 (Some c)) with c. rewrite (wsum_delete t m x c E). destruct (Req_EM_T _ _) as [Ez|_].
    + replace w with (- c) by lra. lra.
    + rewrite <- insert_delete_insert. rewrite wsum_insert by apply lookup_delete. lra.
  - change (default 0 None) with 0. destruct (Req_EM_T _ _) as [Ez|_].
    + rewrite delete_notin by done. replace w with 0 by lra. lra.
    + rewrite wsum_insert by done. lra.
Qed.
Lemma nc_score_of h t l : nc_score lp (nc_of h t l) = Rsum (lp t <$> l).
Proof.
  induction l as [|x l IH].
  - unfold nc_score, nc_of. cbn [nc_seen]. change (seen_of []) with (∅ : gmap T R). by rewrite map_fold_empty.
  - rewrite <- nc_inc_of, nc_score_incorporate, IH, fmap_cons, Rsum_cons. cbn [nc_latents nc_of]. lra.
Qed.
Lemma likelihood_exp (f : T -> R) l : likelihood f l = exp (Rsum (f <$> l)).
Proof.
  induction l as [|x l IH]; [change (Rsum (f <$> [])) with 0; by rewrite exp_0|]. cbn [likelihood]. by rewrite fmap_cons, Rsum_cons, exp_plus, IH.
Qed.
Lemma likelihood_pos (f : T -> R) l : 0 < likelihood f l.
Proof. rewrite likelihood_exp. apply exp_pos. Qed.

Lemma log_le_iff p th : 0 <= p -> log_le p th = true <-> p <= exp th.
Proof.
  intros Hp. unfold log_le. destruct (Req_EM_T p 0) as [->|Hne].
  - split; [|done]. intros _. left. apply exp_pos.
  - assert (0 < p) as Hp' by lra. destruct (Rle_dec (ln p) th) as [Hle|Hgt].
    + split; [|done]. intros _. rewrite <- (exp_ln p) by done. destruct Hle as [Hlt| ->]; [left; by apply exp_increasing|lra].
    + split; [done|]. intros Hle. exfalso. apply Hgt. rewrite <- (ln_exp th).
      destruct Hle as [Hlt| ->]; [left; apply ln_increasing; done|lra].
Qed.

Lemma theta_step h t l r t' r1 p r2 : prior h r = (t', r1) -> unif r1 = (p, r2) -> 0 <= p ->
  nc_transition_theta lp prior unif (nc_of h t l) r =
    (nc_of h (if Rle_dec (p * likelihood (lp t) l) (likelihood (lp t') l) then t' else t) l, r2).
Proof.
  intros Hp Hu Hp0. unfold nc_transition_theta, nc_init_theta. cbn [nc_hyper nc_of]. rewrite Hp.
  change (nc_set_latents (nc_of h t l) t') with (nc_of h t' l). rewrite Hu, !nc_score_of.
  pose proof (log_le_iff p (Rsum (lp t' <$> l) - Rsum (lp t <$> l)) Hp0) as Hl.
  assert (p <= exp (Rsum (lp t' <$> l) - Rsum (lp t <$> l)) <-> p * likelihood (lp t) l <= likelihood (lp t') l) as He.
  { rewrite !likelihood_exp. unfold Rminus. rewrite exp_plus, exp_Ropp.
    pose proof (exp_pos (Rsum (lp t <$> l))) as Hpos. set (a := exp (Rsum (lp t <$> l))) in *. set (b := exp (Rsum (lp t' <$> l))).
    split; intros Hle.
    - apply (Rmult_le_compat_r a) in Hle; [|lra]. rewrite Rmult_assoc, Rinv_l in Hle by lra. lra.
    - apply (Rmult_le_reg_r a); [done|]. rewrite Rmult_assoc, Rinv_l by lra. lra. }
  destruct (log_le _ _) eqn:E; destruct (Rle_dec _ _) as [Hd|Hd]; try done.
  - exfalso. apply Hd, He, Hl. done.
  - apply He, Hl in Hd. done.
Qed.
End nonconj.

(** * Skellam *)
Definition sk_ok (h : sk_hyper) (t : R * R) : Prop :=
  0 < sk_stddev1 h /\ 0 < sk_stddev2 h /\ 0 < t.1 /\ 0 < t.2.
Definition sk_par := {ht : sk_hyper * (R * R) | sk_ok ht.1 ht.2}.
Definition sk_of (h : sk_par) (l : list Z) : skellam := nc_of (`h).1 (`h).2 l.

Lemma stddev_grid_pos x : x ∈ stddev_grid -> 0 < x.
Proof. unfold stddev_grid. rewrite !elem_of_cons, elem_of_nil. intros [->|[->|[->|[]]]]; lra. Qed.
Lemma sk_grid_elem h : h ∈ sk_grid <->
  sk_mean1 h ∈ mean_grid /\ sk_stddev1 h ∈ stddev_grid /\ sk_mean2 h ∈ mean_grid /\ sk_stddev2 h ∈ stddev_grid.
Proof.
  unfold sk_grid. rewrite elem_of_list_bind. split.
  - intros (a & (b & (c & (d & -> & Hd)%elem_of_list_fmap & Hc)%elem_of_list_bind & Hb)%elem_of_list_bind & Ha). done.
  - destruct h as [a b c d]. cbn [sk_mean1 sk_stddev1 sk_mean2 sk_stddev2]. intros (Ha & Hb & Hc & Hd). exists a. split; [|done]. apply elem_of_list_bind.
    exists b. split; [|done]. apply elem_of_list_bind. exists c. split; [|done]. apply elem_of_list_fmap. by exists d.
Qed.

Section skellam.
Context (bessel : nat -> R -> R) (gauss : R -> R -> rng -> R * rng)
  (pois : R -> rng -> Z * rng) (unif : rng -> R * rng).
Notation D := (sk_dist bessel gauss pois unif).

Lemma sk_prior_pos h r t r' : sk_prior gauss h r = (t, r') -> 0 < t.1 /\ 0 < t.2.
Proof.
  unfold sk_prior. destruct (gauss _ _ r) as [a r1]. destruct (gauss _ _ r1) as [b r2]. intros [= <- <-].
  simpl. split; apply exp_pos.
Qed.
Lemma theta_step_of (h : sk_par) l r s r' :
  sk_transition_theta bessel gauss unif (sk_of h l) r = (s, r') -> exists h' : sk_par, s = sk_of h' l /\ (`h').1 = (`h).1.
Proof.
  unfold sk_transition_theta, nc_transition_theta, nc_init_theta. cbn [nc_hyper sk_of nc_of].
  destruct h as [[h t] Hok]. cbn [proj1_sig fst snd sk_of nc_of nc_hyper nc_latents].
  destruct (sk_prior gauss h r) as [t' r1] eqn:Hp. destruct (unif r1) as [p r2].
  destruct (log_le _ _); intros [= <- <-].
  - assert (sk_ok h t') as Hok'. { apply sk_prior_pos in Hp. unfold sk_ok in *. simpl in *. tauto. }
    exists (exist (fun ht : sk_hyper * (R * R) => sk_ok ht.1 ht.2) (h, t') Hok'). done.
  - exists (exist (fun ht : sk_hyper * (R * R) => sk_ok ht.1 ht.2) (h, t) Hok). done.
Qed.
Lemma theta_steps_of n (h : sk_par) l r s r' :
  nc_theta_steps (sk_logp bessel) (sk_prior gauss) unif n (sk_of h l) r = (s, r') ->
  exists h' : sk_par, s = sk_of h' l /\ (`h').1 = (`h).1.
Proof.
  revert h r. induction n as [|n IH]; intros h r; simpl; [intros [= <- <-]; by exists h|].
  destruct (nc_transition_theta _ _ _ _ _) as [s1 r1] eqn:E. apply theta_step_of in E as (h1 & -> & Eh).
  intros (h2 & -> & E2)%IH. exists h2. by rewrite E2.
Qed.
Lemma sk_transition_of (h : sk_par) l r s r' : sk_transition (sk_of h l) r = Ok (s, r') ->
  exists h' : sk_par, s = sk_of h' l /\ (`h').2 = (`h).2 /\ (`h').1 ∈ sk_grid.
Proof.
  unfold sk_transition. intros E. apply obind_Ok in E as ([g r1] & E & [= <- <-]). apply grid_transition_Ok in E.
  destruct h as [[h t] Hok]. pose proof (proj1 (sk_grid_elem g) E) as (_ & Hb & _ & Hd).
  assert (sk_ok g t) as Hok'. { apply stddev_grid_pos in Hb, Hd. unfold sk_ok in *. simpl in *. tauto. }
  exists (exist (fun ht : sk_hyper * (R * R) => sk_ok ht.1 ht.2) (g, t) Hok'). done.
Qed.

Definition sk_lawful steps : lawful (D steps).
Proof.
  refine {| law_hyp := sk_par; law_of := (sk_of : sk_par -> _ -> d_state (D steps)); law_adm := fun _ => True |}.
  - intros h l l' HP. unfold sk_of, nc_of. by rewrite (seen_of_perm _ _ HP), HP.
  - intros h l v s' _. cbn [d_inc sk_dist]. unfold sk_incorporate, sk_of. rewrite nc_inc_of. split; [by intros [= <-]|by intros [_ ->]].
  - intros h l v _. cbn [d_uninc sk_dist]. unfold sk_unincorporate, sk_of. by rewrite nc_uninc_of.
  - intros h l. apply R_is_zero_INR.
  - intros h l. apply R_is_pos_INR.
  - intros sp r. cbn [d_new sk_dist]. unfold sk_start, nc_init_theta. cbn [nc_hyper sk_new].
    destruct (sk_prior gauss (SkHyper 0 1 0 1) r) as [t r'] eqn:E. apply sk_prior_pos in E.
    assert (sk_ok (SkHyper 0 1 0 1) t) as Hok by (unfold sk_ok; simpl; lra).
    by exists (exist (fun ht : sk_hyper * (R * R) => sk_ok ht.1 ht.2) (SkHyper 0 1 0 1, t) Hok).
  - intros h l r s r' Hadm E. cbn [d_resample sk_dist] in E.
    destruct (nc_theta_steps _ _ _ _ _ _) as [s1 r1] eqn:E1. apply theta_steps_of in E1 as (h1 & -> & _).
    apply sk_transition_of in E as (h2 & -> & _). by exists h2.
  - intros h. cbn [d_score sk_dist]. unfold sk_score, sk_of. by rewrite nc_score_of.
Defined.
End skellam.

(** * The Skellam probability is that of a difference of two Poisson values *)
Lemma infinite_sum_ext f g l : (forall n, f n = g n) -> infinite_sum f l -> infinite_sum g l.
Proof.
  intros Hfg Hs eps He. destruct (Hs eps He) as [N HN]. exists N. intros n Hn. rewrite <- (sum_eq f g); auto.
Qed.
Lemma infinite_sum_scal f l a : infinite_sum f l -> infinite_sum (fun n => a * f n) (a * l).
Proof.
  intros Hs eps He. destruct (Req_EM_T a 0) as [->|Ha].
  - exists 0%nat. intros n _. rewrite (sum_eq _ (fun _ => 0)) by (intros; lra). rewrite sum_cte.
    unfold R_dist. replace (0 * INR (S n) - 0 * l) with 0 by lra. by rewrite Rabs_R0.
  - assert (0 < Rabs a) as Hpa by (by apply Rabs_pos_lt).
    destruct (Hs (eps / Rabs a)) as [N HN]; [by apply Rdiv_lt_0_compat|]. exists N. intros n Hn. specialize (HN n Hn).
    rewrite <- (scal_sum f n a) || (rewrite (sum_eq _ (fun i => f i * a)) by (intros; lra); rewrite <- scal_sum).
    unfold R_dist in *. replace (a * sum_f_R0 f n - a * l) with (a * (sum_f_R0 f n - l)) by lra. rewrite Rabs_mult.
    apply (Rmult_lt_compat_l (Rabs a)) in HN; [|done]. replace (Rabs a * (eps / Rabs a)) with eps in HN by (field; lra). done.
Qed.
