(** Model of the predictive probabilities: IRM::logp (cxx/irm.cc:181-288) and
    CleanRelation::logp (cxx/clean_relation.hh:203-226, 390-444). *)
From stdpp Require Import gmap strings sorting.
From Coq Require Import ZArith Reals.
From Verif Require Import M_base M_math M_crp M_domain M_dist M_relation M_noisy M_irm.

(** Adding log-weights; [None] is minus infinity. *)
Definition lw_add (a b : option R) : option R :=
  match a, b with Some x, Some y => Some (x + y)%R | _, _ => None end.

(** irm.cc:218-239, clean_relation.hh:403-422: the clusters an entity may have and
    their log weights. *)
Definition entity_options (dm : domain) (e : Z) : outcome (list Z * list R) :=
  if bool_decide (e ∈ dom_items dm) then
    let* z := dom_get_cluster dm e in
    Ok ([z], [0%R])
  else
    let* w := crp_tables_weights (dom_crp dm) in
    let Zn := ln (crp_alpha (dom_crp dm) + IZR (crp_N (dom_crp dm))) in
    Ok (sorted_keys w, (fun t => (ln (default 0%R (w !! t)) - Zn)%R) <$> sorted_keys w).

Section Logp.
Context {V : Type}.

(** clean_relation.hh:203-209 [prior_logp]. *)
Definition prior_logp {W} (D : Dist W) (rel : relation D) (v : W) (r : rng) : outcome (option R * rng) :=
  let '(c, r') := make_new_distribution D rel r in
  let* lp := d_logp D c v in
  Ok (lp, r').

(** clean_relation.hh:221-226 [cluster_or_prior_logp]. *)
Definition cluster_or_prior_logp {W} (D : Dist W) (rel : relation D) (z : list Z) (v : W) (r : rng) : outcome (option R * rng) :=
  match r_clusters rel !! z with
  | Some c => let* lp := d_logp D c v in Ok (lp, r)
  | None => prior_logp D rel v r
  end.

(** clean_relation.hh:211-219 [cluster_or_prior_logp_from_items]. *)
Definition cluster_or_prior_logp_from_items {W} (D : Dist W) (Wd : world) (rel : relation D) (items : items_t) (v : W) (r : rng)
  : outcome (option R * rng) :=
  let* b := clusters_contains D Wd rel items in
  if b then
    let* z := get_cluster_assignment D Wd rel items in
    let* c := at_ (r_clusters rel !! z) in
    let* lp := d_logp D c v in
    Ok (lp, r)
  else prior_logp D rel v r.

(** noisy_relation.hh:211-217: not implemented for noisy relations, [std::exit]. *)
Definition any_cluster_or_prior_logp (a : any_rel V) (z : list Z) (v : V) (r : rng) : outcome (option R * rng) :=
  match a with
  | AClean D rel => cluster_or_prior_logp D rel z v r
  | ANoisy _ => Exits
  end.

(** The entities of the observations with their options, in order of appearance
    ([item_universe], [weight_universe], [cluster_universe]). *)
Notation universe := (list ((string * Z) * (list Z * list R))).
Definition in_universe (u : universe) (de : string * Z) : bool :=
  existsb (fun p : (string * Z) * (list Z * list R) => bool_decide (p.1 = de)) u.

(** irm.cc:207-246: one (domain, item) of an observation.  [tables_weights] is
    called once more just to reserve memory (:217). *)
Definition add_entity (W : world) (u : universe) (de : string * Z) : outcome universe :=
  if in_universe u de then Ok u
  else
    let* dm := deref W de.1 in
    let* _ := crp_tables_weights (dom_crp dm) in
    let* opts := entity_options dm de.2 in
    Ok (u ++ [(de, opts)]).

Notation observation := (string * items_t * V)%type.

(** irm.cc:197-247. *)
Definition add_observation (ir : irm V) (st : gset (string * items_t) * universe) (ob : observation)
  : outcome (gset (string * items_t) * universe) :=
  let '(seen, u) := st in
  let '(name, items, _) := ob in
  let* _ := assert_ (bool_decide ((name, items) ∉ seen)) in
  let* a := at_ (i_rels ir !! name) in
  let* _ := assert_ (bool_decide (length items = length (any_doms a))) in
  let* u := foldM (add_entity (i_domains ir)) u (zip (any_doms a) items) in
  Ok ({[(name, items)]} ∪ seen, u).

(** irm.cc:256-259. *)
Fixpoint weight_of (u : universe) (idx : list nat) : outcome R :=
  match u, idx with
  | p :: u', i :: idx' =>
    let* w := at_ (p.2.2 !! i) in
    let* rest := weight_of u' idx' in
    Ok (w + rest)%R
  | [], [] => Ok 0%R
  | _, _ => Throws
  end.

(** irm.cc:269-270: the cluster chosen for an entity. *)
Fixpoint chosen (u : universe) (idx : list nat) (de : string * Z) : outcome Z :=
  match u, idx with
  | p :: u', i :: idx' => if bool_decide (p.1 = de) then at_ (p.2.1 !! i) else chosen u' idx' de
  | _, _ => Throws
  end.
Fixpoint chosen_block (u : universe) (idx : list nat) (des : list (string * Z)) : outcome (list Z) :=
  match des with
  | [] => Ok []
  | de :: des' =>
    let* t := chosen u idx de in
    let* ts := chosen_block u idx des' in
    Ok (t :: ts)
  end.

(** irm.cc:261-283: one observation's log probability, with the chosen clusters. *)
Definition obs_step (ir : irm V) (u : universe) (idx : list nat) (st : option R * rng) (ob : observation)
  : outcome (option R * rng) :=
  let '(acc, r) := st in
  let '(name, items, v) := ob in
  let* a := at_ (i_rels ir !! name) in
  let* z := chosen_block u idx (zip (any_doms a) items) in
  let* (lp, r) := any_cluster_or_prior_logp a z v r in
  Ok (lw_add acc lp, r).

(** irm.cc:253-285: log probability of the observations together with one choice of
    clusters. *)
Definition combination_logp (ir : irm V) (obs : list observation) (u : universe) (idx : list nat) (r : rng)
  : outcome (option R * rng) :=
  let* w := weight_of u idx in
  foldM (obs_step ir u idx) (Some w, r) obs.
Definition combo_step (ir : irm V) (obs : list observation) (u : universe) (st : list (option R) * rng) (idx : list nat)
  : outcome (list (option R) * rng) :=
  let '(logps, r) := st in
  let* (lp, r) := combination_logp ir obs u idx r in
  Ok (logps ++ [lp], r).

(** irm.cc:181-288 [IRM::logp]. *)
Definition irm_logp (ir : irm V) (obs : list observation) (r : rng) : outcome (option R * rng) :=
  let* (_, u) := foldM (add_observation ir) (∅, []) obs in
  let* combos := product ((fun p : (string * Z) * (list Z * list R) => seq 0 (length p.2.1)) <$> u) in
  let* (logps, r) := foldM (combo_step ir obs u) ([], r) combos in
  let* lp := logsumexp logps in
  Ok (lp, r).
End Logp.
