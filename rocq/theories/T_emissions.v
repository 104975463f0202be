(** Theorems about the likelihoods of emissions: C50. *)
From Coq Require Import ZArith Reals Ascii Lra.
From stdpp Require Import list gmap strings.
From Coq Require Import Lia.
From Verif Require Import M_base M_text M_math M_dist M_distributions M_noisy M_emissions
  S_math S_crp S_dist S_relation S_emissions P_base P_math P_dist P_beta_bernoulli P_dirichlet P_normal
  P_weights P_emissions P_emission_laws P_propose T_propose.
Local Open Scope R_scope.

(** ** C50: the log probability of an emission is the increase of its score, and
    probabilities sum to one *)
Definition shift (x : R * R) : R := x.2 - x.1.
Lemma wtotal_ones {X} (f : X -> R) l : wtotal f (ones l) = Rsum (map f l).
Proof. induction l as [|x l IH]; [done|]. cbn [ones map]. fold (ones l). rewrite wtotal_cons, IH, Rsum_cons. lra. Qed.
Lemma wzm_ones h l : wzm_of h (ones l) = zm_of2 h l.
Proof.
  unfold wzm_of, zm_of2. rewrite ones_weight. f_equal. destruct l as [|x l]; [done|]. unfold wavg, mean_square_of.
  change (ones (x :: l)) with ((x, 1) :: ones l). rewrite wtotal_cons, weight_cons, wtotal_ones, ones_weight. cbn [fmap list_fmap]. rewrite Rsum_cons. cbn [length]. rewrite S_INR.
  rewrite Rmult_1_l, (Rplus_comm 1). reflexivity.
Qed.
Lemma shifts_ones l : shifts (ones l) = ones (map shift l).
Proof. induction l as [|x l IH]; [done|]. cbn [ones map shifts]. by f_equal. Qed.
Theorem C50_gaussian lg smp s l x : dist_history (em_dist (gaussian_emis lg smp)) s l ->
  ga_score lg (ga_incorporate s x 1) - ga_score lg s = ga_logp lg s x.
Proof.
  intros H. destruct (history_lawful _ (ga_lawful lg smp) _ _ H) as [_ [[[a b] [Ha Hb]] ->]]. cbn in Ha, Hb.
  cbn [law_of ga_lawful wdist_lawful proj1_sig wl_of ga_wlawful]. unfold ga_incorporate, ga_score, ga_logp. cbn [wga_of ga_N ga_zmn].
  rewrite shifts_ones. rewrite wzm_inc by (try exact Rlt_0_1; by apply ones_ok, Rlt_0_1).
  change ((x.2 - x.1, 1) :: ones (map shift l)) with (ones (shift x :: map shift l)). rewrite !wzm_ones. by apply zm_chain.
Qed.
Print Assumptions C50_gaussian.
Example C50_gaussian_meets lg smp : exists s, dist_history (em_dist (gaussian_emis lg smp)) s [(2, 3); (1, 1 / 2)].
Proof. eexists. eapply (hist_inc (em_dist (gaussian_emis lg smp))); [eapply (hist_inc (em_dist (gaussian_emis lg smp))); [apply (hist_new (em_dist (gaussian_emis lg smp)) () [])|reflexivity]|reflexivity]. Qed.

Lemma differs_ones {V} `{EqDecision V} (l : list (V * V)) : differs (ones l) = ones (map (fun x => bool_decide (x.1 <> x.2)) l).
Proof. induction l as [|x l IH]; [done|]. cbn [ones map differs]. by f_equal. Qed.
(** Sometimes with a base emission whose log probability is the increase of its score *)
Theorem C50_sometimes {V} `{EqDecision V} (B : WEmis V) lg h (Hh : positive2 h) l be n x s' p : is_lgamma lg ->
  (forall be', x.1 <> x.2 -> we_inc B be x 1 = Ok be' -> we_logp B be x = Ok (we_score B be' - we_score B be)) ->
  sm_incorporate B false (Sometimes_ B n (bb_of (exist _ h Hh) l) be) x 1 = Ok s' ->
  sm_logp B false (Sometimes_ B n (bb_of (exist _ h Hh) l) be) x = Ok p ->
  sm_score B lg s' - sm_score B lg (Sometimes_ B n (bb_of (exist _ h Hh) l) be) = p.
Proof.
  intros Hlg HB Hi Hp. unfold sm_incorporate in Hi. unfold sm_logp in Hp. cbn [sm_N sm_bb sm_be] in *. unfold sm_score. destruct (decide (x.1 = x.2)) as [E|E].
  - injection Hi as <-. injection Hp as <-. cbn [sm_bb sm_be]. rewrite bb_inc_of. pose proof (bb_chain lg (exist _ h Hh) l false Hlg). lra.
  - apply obind_Ok in Hi as (be' & Hbe & [= <-]). apply obind_Ok in Hp as (q & Hq & [= <-]). rewrite (HB be' E Hbe) in Hq. injection Hq as <-. cbn [sm_bb sm_be].
    rewrite bb_inc_of. pose proof (bb_chain lg (exist _ h Hh) l true Hlg). lra.
Qed.
Theorem C50_sometimes_bitflip lg s l x s' : is_lgamma lg -> dist_history (em_dist (sometimes_bitflip lg)) s l ->
  sm_incorporate bitflip_we false s x 1 = Ok s' -> sm_logp bitflip_we false s x = Ok (sm_score bitflip_we lg s' - sm_score bitflip_we lg s).
Proof.
  intros Hlg H Hi. destruct (history_lawful _ (sb_lawful lg) _ _ H) as [_ [[[h []] Hh] ->]]. cbn [fst snd] in Hh.
  cbn [law_of sb_lawful wdist_lawful proj1_sig wl_of sm_wlawful] in *. unfold wsm_of in *. cbn [fst snd] in *. rewrite differs_ones, (wbb_of_ones h Hh) in *.
  set (be := wl_of bf_wlawful () (changed (ones l))) in *.
  match goal with |- sm_logp _ _ ?st _ = _ => assert (exists p, sm_logp bitflip_we false st x = Ok p) as [p Hp] end.
  { unfold sm_logp. cbn [sm_N sm_bb sm_be]. destruct (decide (x.1 = x.2)); [by eexists|]. cbn [we_logp bitflip_we]. unfold bf_logp. rewrite bool_decide_eq_true_2 by done. by eexists. }
  rewrite Hp. f_equal. symmetry. refine (C50_sometimes bitflip_we lg h Hh _ _ _ x s' p Hlg _ Hi Hp). intros be' Hn _. cbn. unfold bf_logp. rewrite bool_decide_eq_true_2 by done. cbn. f_equal. lra.
Qed.
Print Assumptions C50_sometimes_bitflip.
Theorem C50_sometimes_gaussian lg smp s l x s' : is_lgamma lg -> dist_history (em_dist (sometimes_gaussian lg smp)) s l ->
  sm_incorporate (gaussian_we lg smp) false s x 1 = Ok s' ->
  sm_logp (gaussian_we lg smp) false s x = Ok (sm_score (gaussian_we lg smp) lg s' - sm_score (gaussian_we lg smp) lg s).
Proof.
  intros Hlg H Hi. destruct (history_lawful _ (sg_lawful lg smp) _ _ H) as [_ [[[h hb] [Hh Hb]] ->]]. cbn [fst snd] in Hh, Hb.
  cbn [law_of sg_lawful wdist_lawful proj1_sig wl_of sm_wlawful] in *. unfold wsm_of in *. cbn [fst snd] in *. rewrite differs_ones, (wbb_of_ones h Hh) in *.
  set (be := wl_of ga_wlawful hb (changed (ones l))) in *.
  match goal with |- sm_logp _ _ ?st _ = _ => assert (exists p, sm_logp (gaussian_we lg smp) false st x = Ok p) as [p Hp] end.
  { unfold sm_logp. cbn [sm_N sm_bb sm_be]. destruct (decide (x.1 = x.2)); [by eexists|]. cbn [we_logp gaussian_we]. by eexists. }
  rewrite Hp. f_equal. symmetry. refine (C50_sometimes (gaussian_we lg smp) lg h Hh _ _ _ x s' p Hlg _ Hi Hp). intros be' Hn Hbe. cbn [we_logp we_score we_inc gaussian_we] in *. f_equal.
  injection Hbe as <-. unfold be. cbn [wl_of ga_wlawful].
  assert (changed (ones l) = ones (filter (fun x => x.1 <> x.2) l)) as ->.
  { clear. induction l as [|y l IH]; [done|]. unfold changed in *. cbn [ones map]. fold (ones l). rewrite !filter_cons. cbn [fst]. destruct (decide (y.1 <> y.2)); cbn [ones map]; by rewrite IH. }
  destruct hb as [a b]. destruct Hb as [Ha Hb]. cbn in Ha, Hb. unfold ga_incorporate, ga_score, ga_logp. cbn [wga_of ga_N ga_zmn].
  rewrite shifts_ones. rewrite wzm_inc by (try exact Rlt_0_1; by apply ones_ok, Rlt_0_1).
  change ((x.2 - x.1, 1) :: ones (map shift (filter (fun x => x.1 <> x.2) l))) with (ones (shift x :: map shift (filter (fun x => x.1 <> x.2) l))). rewrite !wzm_ones. symmetry. by apply zm_chain.
Qed.
Print Assumptions C50_sometimes_gaussian.

(** The probabilities of the two values that a bit can be observed as. *)
Theorem C50_sometimes_bitflip_sums_to_one lg s l clean : dist_history (em_dist (sometimes_bitflip lg)) s l ->
  exists p q, sm_logp bitflip_we false s (clean, clean) = Ok p /\ sm_logp bitflip_we false s (clean, negb clean) = Ok q /\ exp p + exp q = 1 /\
    exp q = (INR (length (filter (fun x => x.1 <> x.2) l)) + bb_alpha (sm_bb s)) / (INR (length l) + bb_alpha (sm_bb s) + bb_beta (sm_bb s)).
Proof.
  intros H. destruct (history_lawful _ (sb_lawful lg) _ _ H) as [_ [[[h []] Hh] ->]]. cbn [fst snd] in Hh.
  cbn [law_of sb_lawful wdist_lawful proj1_sig wl_of sm_wlawful] in *. unfold wsm_of. cbn [fst snd]. rewrite differs_ones, (wbb_of_ones h Hh).
  unfold sm_logp. cbn [sm_N sm_bb sm_be fst snd]. rewrite decide_True by done. rewrite decide_False by by destruct clean.
  eexists _, _. split; [reflexivity|]. cbn [we_logp bitflip_we]. unfold bf_logp. cbn [fst snd]. rewrite bool_decide_eq_true_2 by by destruct clean. cbn [assert_ obind].
  split; [reflexivity|]. rewrite Rplus_0_r. set (k := map (fun x => bool_decide (x.1 <> x.2)) l). split; [pose proof (bb_predictive (exist _ h Hh) k); lra|].
  destruct (bb_of_pos (exist _ h Hh) k) as [P1 P2]. unfold bb_logp. unfold Rminus. rewrite exp_plus, exp_Ropp, !exp_ln by (try done; cbn in *; lra).
  cbn [bb_of bb_N bb_s bb_alpha bb_beta proj1_sig]. rewrite <- INR_IZR_INZ. unfold k. rewrite map_length. unfold Rdiv. do 3 f_equal.
  clear. induction l as [|x l IH]; [done|]. cbn [map]. rewrite occurrences_cons, filter_cons, IH.
  destruct (bool_decide_reflect (x.1 <> x.2)); repeat first [rewrite decide_True by done | rewrite decide_False by done]; cbn [length]; lia.
Qed.
Print Assumptions C50_sometimes_bitflip_sums_to_one.

(** Sometimes over any base emission: if the base's probabilities of the possible observed
    values sum to one (of those other than the clean value, unless the base may keep it),
    so do those of Sometimes. *)
Theorem C50_sometimes_sums_to_one {V} `{EqDecision V} (B : WEmis V) (can_equal : bool) s clean (others : list V) (lps : list R) :
  clean ∉ others ->
  exp (bb_logp (sm_bb s) true) + exp (bb_logp (sm_bb s) false) = 1 ->
  Forall2 (fun d p => we_logp B (sm_be s) (clean, d) = Ok p) others lps ->
  forall base_keep, (if can_equal then we_logp B (sm_be s) (clean, clean) = Ok (ln base_keep) /\ 0 < base_keep else base_keep = 0) ->
  base_keep + Rsum (map exp lps) = 1 ->
  exists p ps, sm_logp B can_equal s (clean, clean) = Ok p /\ Forall2 (fun d p => sm_logp B can_equal s (clean, d) = Ok p) others ps /\
    exp p + Rsum (map exp ps) = 1.
Proof.
  intros Hc Hb HF keep Hk Hsum. set (t := bb_logp (sm_bb s) true) in *. set (f := bb_logp (sm_bb s) false) in *.
  assert (exists ps, Forall2 (fun d p => sm_logp B can_equal s (clean, d) = Ok p) others ps /\ Rsum (map exp ps) = exp t * Rsum (map exp lps)) as (ps & HP & HPs).
  { clear Hsum Hk. induction HF as [|d p ds ps Hd HF IH]; [exists []; split; [constructor|change (Rsum (map exp [])) with 0; lra]|].
    destruct IH as (qs & HQ & HS); [intros Hin; apply Hc; by right|]. exists ((t + p) :: qs). split.
    - constructor; [|done]. unfold sm_logp. cbn [fst snd]. rewrite decide_False by (intros ->; apply Hc; by left). by rewrite Hd.
    - cbn [map]. rewrite !Rsum_cons, HS, exp_plus. lra. }
  unfold sm_logp at 1. cbn [fst snd]. rewrite decide_True by done. destruct can_equal.
  - destruct Hk as [Hk Hpos]. rewrite Hk. cbn [obind]. eexists _, ps. split; [reflexivity|]. split; [done|]. rewrite HPs. fold t f.
    pose proof (exp_pos f). pose proof (exp_pos (t + ln keep)). rewrite exp_ln by lra. rewrite exp_plus, exp_ln by done. rewrite Rplus_assoc, <- Rmult_plus_distr_l, Hsum. lra.
  - eexists _, ps. split; [reflexivity|]. split; [done|]. rewrite HPs. fold f. subst keep. rewrite Rplus_0_l in Hsum. rewrite Hsum. lra.
Qed.
Print Assumptions C50_sometimes_sums_to_one.
Example C50_sometimes_bitflip_meets lg : exists s, dist_history (em_dist (sometimes_bitflip lg)) s [(true, false); (true, true)].
Proof.
  eexists. eapply (hist_inc (em_dist (sometimes_bitflip lg))); [eapply (hist_inc (em_dist (sometimes_bitflip lg))); [apply (hist_new (em_dist (sometimes_bitflip lg)) () [])|reflexivity]|reflexivity].
Qed.
Example C50_sometimes_sums_to_one_meets : exists p ps,
  sm_logp bitflip_we false (sm_new bitflip_we) (true, true) = Ok p /\ Forall2 (fun d p => sm_logp bitflip_we false (sm_new bitflip_we) (true, d) = Ok p) [false] ps /\ exp p + Rsum (map exp ps) = 1.
Proof.
  apply (C50_sometimes_sums_to_one bitflip_we false (sm_new bitflip_we) true [false] [0]) with (base_keep := 0).
  - intros H. apply elem_of_list_singleton in H. done.
  - exact (bb_predictive (exist _ (1, 1) ones_11) []).
  - constructor; [reflexivity|constructor].
  - done.
  - cbn [map]. rewrite Rsum_cons, exp_0. change (Rsum []) with 0. lra.
Qed.
