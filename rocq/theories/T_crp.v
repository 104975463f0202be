(** C01-C07: the Chinese restaurant process and domains. *)
From stdpp Require Import gmap.
From Coq Require Import ZArith Reals Lra.
From Verif Require Import M_base M_math M_crp M_domain S_crp S_crp_state S_math
  P_base P_math P_sum P_crp P_crp_score P_lgamma P_domain.

(** ** C01 *)
(** Any history of requests either runs into the first illegal request, at
    which the assertion fails, or ends with the object holding exactly the
    seating the requests describe. *)
Theorem C01_crp_bookkeeping : forall ops : list seat_op,
  match seat_run ∅ ops with
  | Some a => exists c, foldM crp_do crp_new ops = Ok c /\ holds_seating c a
  | None => foldM crp_do crp_new ops = AssertFail
  end.
Proof. intros ops. exact (crp_history crp_new ∅ ops holds_new). Qed.
Print Assumptions C01_crp_bookkeeping.

(** The same with concentration resampling interleaved; alpha stays positive. *)
Theorem C01_crp_bookkeeping_with_resampling : forall (lg : R -> R) (es : list crp_event),
  match seat_run ∅ (crp_requests es) with
  | Some a => exists c, foldM (crp_event_do lg) crp_new es = Ok c /\ holds_seating c a /\ (0 < crp_alpha c)%R
  | None => foldM (crp_event_do lg) crp_new es = AssertFail
  end.
Proof. intros lg es. exact (crp_event_history lg crp_new ∅ es holds_new Rlt_0_1). Qed.
Print Assumptions C01_crp_bookkeeping_with_resampling.

Example C01_example :
  seat_run ∅ [Seat 1 0; Seat 2 0; Seat 3 5; Unseat 2; Seat 2 5]
  = Some {[1%Z := 0%Z; 2%Z := 5%Z; 3%Z := 5%Z]}.
Proof. by_compute. Qed.
Example C01_example_illegal : seat_run ∅ [Seat 1 0; Unseat 2] = None.
Proof. reflexivity. Qed.

(** ** C02 *)
Theorem C02_unincorporate_incorporate : forall c a i t c',
  holds_seating c a -> crp_incorporate c i t = Ok c' -> crp_unincorporate c' i = Ok c.
Proof. exact incorporate_unincorporate. Qed.
Print Assumptions C02_unincorporate_incorporate.

Theorem C02_incorporate_unincorporate : forall c a i t c',
  holds_seating c a -> crp_assignments c !! i = Some t ->
  crp_unincorporate c i = Ok c' -> crp_incorporate c' i t = Ok c.
Proof. exact unincorporate_incorporate. Qed.
Print Assumptions C02_incorporate_unincorporate.

(** A reachable, non-empty object to which the hypotheses of C02-C06 apply. *)
Example crp_example : exists c,
  foldM crp_do crp_new [Seat 1 0; Seat 2 0; Seat 3 5] = Ok c /\
  holds_seating c {[1%Z := 0%Z; 2%Z := 0%Z; 3%Z := 5%Z]} /\
  is_Some (crp_assignments c !! 2%Z) /\ crp_assignments c !! 4%Z = None.
Proof.
  pose proof (C01_crp_bookkeeping [Seat 1 0; Seat 2 0; Seat 3 5]) as H. simpl in H.
  destruct H as (c & Hc & Hh). exists c. split; [exact Hc|].
  assert ((<[3%Z:=5%Z]> (<[2%Z:=0%Z]> (<[1%Z:=0%Z]> ∅)) : gmap Z Z)
    = {[1%Z := 0%Z; 2%Z := 0%Z; 3%Z := 5%Z]}) as E by by_compute.
  rewrite E in Hh. split; [exact Hh|].
  rewrite (hs_assign _ _ Hh). split; [by_compute|by_compute].
Qed.

(** ** C03 *)
(** Seating probabilities of a non-empty CRP. *)
Theorem C03_crp_seating_distribution : forall c a,
  holds_seating c a -> a <> ∅ -> (0 < crp_alpha c)%R ->
  exists w tnew, crp_tables_weights c = Ok w /\ customers_at a tnew = ∅ /\
    (forall t, is_Some (w !! t) <-> customers_at a t <> ∅ \/ t = tnew) /\
    (forall t, customers_at a t <> ∅ ->
       crp_logp c t = Ok (Some (ln (INR (size (customers_at a t)) / (INR (size a) + crp_alpha c))))) /\
    crp_logp c tnew = Ok (Some (ln (crp_alpha c / (INR (size a) + crp_alpha c)))) /\
    crp_logp_new_table c = ln (crp_alpha c / (INR (size a) + crp_alpha c)) /\
    (forall t, customers_at a t = ∅ -> t <> tnew -> crp_logp c t = Ok None) /\
    sum_map (fun t _ => match crp_logp c t with Ok l => eexp l | _ => 0%R end) w = 1%R.
Proof. exact crp_probabilities. Qed.
Print Assumptions C03_crp_seating_distribution.

(** For an emptied CRP whose alpha was resampled, the probabilities do not add
    up to 1 and the chain rule of C04 fails. *)
Theorem C03_C04_empty_crp_refuted : forall lg, is_lgamma lg ->
  exists es c w, foldM (crp_event_do lg) crp_new es = Ok c /\
    crp_tables_weights c = Ok w /\
    sum_map (fun t _ => match crp_logp c t with Ok l => eexp l | _ => 0%R end) w <> 1%R /\
    exists i t l c', crp_logp c t = Ok (Some l) /\ crp_incorporate c i t = Ok c' /\
      (crp_logp_score lg c' - crp_logp_score lg c)%R <> l.
Proof. exact empty_crp_refuted. Qed.
Print Assumptions C03_C04_empty_crp_refuted.

(** ** C04 *)
Theorem C04_crp_chain_rule : forall lg c a i t c' l,
  is_lgamma lg -> holds_seating c a -> (0 < crp_alpha c)%R -> (a <> ∅ \/ crp_alpha c = 1%R) ->
  crp_incorporate c i t = Ok c' -> crp_logp c t = Ok (Some l) ->
  (crp_logp_score lg c' - crp_logp_score lg c)%R = l.
Proof. exact chain_rule. Qed.
Print Assumptions C04_crp_chain_rule.

Theorem C04_crp_chain_rule_new_table : forall lg c a i t c',
  is_lgamma lg -> holds_seating c a -> (0 < crp_alpha c)%R -> customers_at a t = ∅ ->
  crp_incorporate c i t = Ok c' ->
  (crp_logp_score lg c' - crp_logp_score lg c)%R = crp_logp_new_table c.
Proof. exact chain_rule_new. Qed.
Print Assumptions C04_crp_chain_rule_new_table.

(** Whatever the order in which the customers of a partition arrive and however
    the tables are numbered, the predictive log-probabilities add up to the same
    number, the score of the final state.  (The first customer is seated with
    probability one.) *)
Theorem C04_crp_exchangeable : forall lg alpha i1 t1 l1 i2 t2 l2 d1 d2 s1 s2 c1 c2,
  is_lgamma lg -> (0 < alpha)%R ->
  crp_incorporate (Crp alpha 0 ∅ ∅) i1 t1 = Ok d1 -> seat_scored d1 l1 = Ok (Some s1, c1) ->
  crp_incorporate (Crp alpha 0 ∅ ∅) i2 t2 = Ok d2 -> seat_scored d2 l2 = Ok (Some s2, c2) ->
  same_partition (crp_assignments c1) (crp_assignments c2) ->
  s1 = s2 /\ s1 = crp_logp_score lg c1.
Proof. exact exchangeable. Qed.
Print Assumptions C04_crp_exchangeable.

Example C04_lgamma_exists : exists lg, is_lgamma lg.
Proof. exists some_lgamma. exact some_lgamma_ok. Qed.

(** Two different arrival orders (with different table numbers) of the
    partition {1,2},{3} satisfying the hypotheses of exchangeability. *)
Definition ex_scored (alpha : R) (l : list (Z * Z)) : option (gmap Z Z) :=
  match l with
  | [] => None
  | (i, t) :: l' =>
    match crp_incorporate (Crp alpha 0 ∅ ∅) i t with
    | Ok d => match seat_scored d l' with Ok (Some _, c) => Some (crp_assignments c) | _ => None end
    | _ => None
    end
  end.
Example C04_exchangeable_example :
  ex_scored 1 [(1, 0); (2, 0); (3, 1)]%Z = Some {[1%Z := 0%Z; 2%Z := 0%Z; 3%Z := 1%Z]} /\
  ex_scored 1 [(3, 0); (1, 1); (2, 1)]%Z = Some {[1%Z := 1%Z; 2%Z := 1%Z; 3%Z := 0%Z]}.
Proof. split; by_compute. Qed.
Example C04_exchangeable_example_same :
  same_partition {[1%Z := 0%Z; 2%Z := 0%Z; 3%Z := 1%Z]} {[1%Z := 1%Z; 2%Z := 1%Z; 3%Z := 0%Z]}.
Proof.
  split; [by_compute|]. intros i j Hi Hj.
  assert (i = 1 \/ i = 2 \/ i = 3)%Z as Hi' by set_solver.
  assert (j = 1 \/ j = 2 \/ j = 3)%Z as Hj' by set_solver.
  destruct Hi' as [->|[->| ->]], Hj' as [->|[->| ->]]; vm_compute; split; congruence.
Qed.

(** ** C05 *)
(** The Gibbs weights for a customer [i] seated at [t] are the seating weights
    that remain when [i] is removed. *)
Theorem C05_crp_gibbs_weights : forall c a i t,
  holds_seating c a -> a !! i = Some t -> (0 < crp_alpha c)%R ->
  exists w tnew, crp_tables_weights_gibbs c t = Ok w /\
    customers_at (delete i a) tnew = ∅ /\
    (customers_at a t = {[i]} -> tnew = t) /\
    (forall t', w !! t' =
      if decide (customers_at (delete i a) t' = ∅)
      then (if decide (t' = tnew) then Some (crp_alpha c) else None)
      else Some (INR (size (customers_at (delete i a) t')))) /\
    sum_map (fun _ x => x) w = (INR (size a) - 1 + crp_alpha c)%R.
Proof. intros c a i t H Hi _. exact (gibbs_weights c a i t H Hi). Qed.
Print Assumptions C05_crp_gibbs_weights.

(** ** C06 *)
Theorem C06_transition_alpha : forall lg c a r,
  holds_seating c a ->
  exists c' r', crp_transition_alpha lg c r = Ok (c', r') /\
    crp_N c' = crp_N c /\ crp_tables c' = crp_tables c /\ crp_assignments c' = crp_assignments c /\
    (a = ∅ -> c' = c) /\
    (a <> ∅ -> (1 / INR (size a) <= crp_alpha c' <= INR (size a) + 1)%R).
Proof. exact transition_alpha_spec. Qed.
Print Assumptions C06_transition_alpha.

(** ** C07 *)
Theorem C07_domain_entities : forall ops d,
  foldM dom_do dom_new ops = Ok d -> exists a, domain_holds d a.
Proof. exact dom_history. Qed.
Print Assumptions C07_domain_entities.

Theorem C07_domain_call_effect : forall d a o d',
  domain_holds d a -> dom_do d o = Ok d' ->
  exists a', domain_holds d' a' /\ dom_call_effect a a' o.
Proof. exact dom_do_effect. Qed.
Print Assumptions C07_domain_call_effect.

Example C07_example :
  (let* d := foldM dom_do dom_new
    [DIncorporate 7 (-1) [3]; DIncorporate 8 2 []; DIncorporate 7 (-1) []; DReassign 7 2; DUnincorporate 8]
   in Ok (dom_items d, crp_assignments (dom_crp d)))
  = Ok ({[7%Z]}, {[7%Z := 2%Z]}).
Proof. by_compute. Qed.
