(** Model of CleanRelation::logp (cxx/clean_relation.hh:390-444) and of the
    approximate reassignment scores (cxx/clean_relation.hh:258-300). *)
From stdpp Require Import gmap strings sorting.
From Coq Require Import ZArith Reals.
From Verif Require Import M_base M_math M_crp M_domain M_dist M_relation M_noisy M_irm M_logp.

Section RelLogp.
Context {V : Type} (D : Dist V).

(** clean_relation.hh:397-425: the clusters and log weights of every position, one
    position after the other, whether or not an entity occurs twice. *)
Fixpoint position_options (W : world) (ds : list string) (es : items_t) : outcome (list (list Z * list R)) :=
  match ds, es with
  | [], _ => Ok []
  | _ :: _, [] => Throws
  | d :: ds', e :: es' =>
    let* dm := deref W d in
    let* o := entity_options dm e in
    let* os := position_options W ds' es' in
    Ok (o :: os)
  end.

(** clean_relation.hh:429-437: the block and the log weight of one combination. *)
Fixpoint combination_block (os : list (list Z * list R)) (idx : list nat) : outcome (list Z * R) :=
  match os, idx with
  | [], _ => Ok ([], 0%R)
  | o :: os', i :: idx' =>
    let* t := at_ (o.1 !! i) in
    let* w := at_ (o.2 !! i) in
    let* (z, ws) := combination_block os' idx' in
    Ok (t :: z, (w + ws)%R)
  | _ :: _, [] => UB
  end.

(** clean_relation.hh:427-442: the body of the loop over the combinations; a fresh
    object is built for every one of them, needed or not. *)
Definition combination_step (rel : relation D) (os : list (list Z * list R)) (v : V)
    (st : list (option R) * rng) (idx : list nat) : outcome (list (option R) * rng) :=
  let '(logps, r) := st in
  let* _ := assert_ (bool_decide (length idx = length (r_doms rel))) in
  let* (z, w) := combination_block os idx in
  let '(prior, r) := make_new_distribution D rel r in
  let* lp := d_logp D (default prior (r_clusters rel !! z)) v in
  Ok (logps ++ [lw_add lp (Some w)], r).

(** clean_relation.hh:390-444 [logp]. *)
Definition rel_logp (W : world) (rel : relation D) (items : items_t) (v : V) (r : rng) : outcome (option R * rng) :=
  let* _ := assert_ (bool_decide (length items = length (r_doms rel))) in
  let* os := position_options W (r_doms rel) items in
  let* combos := product ((fun o : list Z * list R => seq 0 (length o.1)) <$> os) in
  let* (logps, r) := foldM (combination_step rel os v) ([], r) combos in
  let* lp := logsumexp logps in
  Ok (lp, r).

(** clean_relation.hh:261-273 [logp_gibbs_approx_current]: each value is taken out
    of its block, scored, and put back. *)
Definition approx_current_step (W : world) (st : option R * relation D) (items : items_t) : outcome (option R * relation D) :=
  let '(acc, rel) := st in
  let* x := at_ (r_data rel !! items) in
  let* z := get_cluster_assignment D W rel items in
  let* c := at_ (r_clusters rel !! z) in
  let* c1 := d_uninc D c x in
  let* lp := d_logp D c1 x in
  let* c2 := d_inc D c1 x in
  Ok (lw_add acc lp, set_clusters D rel (<[z := c2]> (r_clusters rel))).
Definition logp_gibbs_approx_current (W : world) (rel : relation D) (ord : set_order) (d0 : string) (e0 : Z)
  : outcome (option R * relation D) :=
  let* m := at_ (r_data_r rel !! d0) in
  let* s := at_ (m !! e0) in
  foldM (approx_current_step W) (Some 0%R, rel) (ord s).

(** clean_relation.hh:275-292 [logp_gibbs_approx_variant]. *)
Definition approx_variant_step (W : world) (rel : relation D) (d0 : string) (e0 t0 : Z) (st : option R * rng) (items : items_t)
  : outcome (option R * rng) :=
  let '(acc, r) := st in
  let* x := at_ (r_data rel !! items) in
  let* z := get_cluster_assignment_gibbs D W rel items d0 e0 t0 in
  match r_clusters rel !! z with
  | None =>
    let '(c, r) := make_new_distribution D rel r in
    let* lp := d_logp D c x in
    Ok (lw_add acc lp, r)
  | Some c =>
    let* lp := d_logp D c x in
    Ok (lw_add acc lp, r)
  end.
Definition logp_gibbs_approx_variant (W : world) (rel : relation D) (ord : set_order) (d0 : string) (e0 t0 : Z) (r : rng)
  : outcome (option R * rng) :=
  let* m := at_ (r_data_r rel !! d0) in
  let* s := at_ (m !! e0) in
  foldM (approx_variant_step W rel d0 e0 t0) (Some 0%R, r) (ord s).

(** clean_relation.hh:294-300 [logp_gibbs_approx]. *)
Definition logp_gibbs_approx (W : world) (rel : relation D) (ord : set_order) (d0 : string) (e0 t0 : Z) (r : rng)
  : outcome (option R * relation D * rng) :=
  let* dm := deref W d0 in
  let* cur := dom_get_cluster dm e0 in
  if bool_decide (cur = t0) then
    let* (lp, rel) := logp_gibbs_approx_current W rel ord d0 e0 in
    Ok (lp, rel, r)
  else
    let* (lp, r) := logp_gibbs_approx_variant W rel ord d0 e0 t0 r in
    Ok (lp, rel, r).
End RelLogp.
