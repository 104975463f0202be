(** Model of cxx/clean_relation.hh: a relation over shared domains whose blocks
    (clusters) accumulate the observed values. *)
From stdpp Require Import gmap strings.
From Coq Require Import ZArith Reals.
From Verif Require Import M_base M_crp M_domain M_dist.

(** util_hash.hh / relation.hh: an entity is an int, an observation key a vector
    of entities. *)
Notation items_t := (list Z).

(** The domains shared by the relations of one model, by name ([Domain*] in the
    C++; the model threads the objects through every call that may change them). *)
Notation world := (gmap string domain).

(** Following a [Domain*]; a dangling pointer would be undefined behaviour. *)
Definition deref (W : world) (d : string) : outcome domain := idx_ (W !! d).

(** clean_relation.hh:33-55. *)
Record relation {V} (D : Dist V) := Rel {
  r_doms : list string;                                  (* :42 *)
  r_spec : d_spec D;                                     (* :44 *)
  r_clusters : gmap (list Z) (d_state D);                (* :46-48 *)
  r_data : gmap items_t V;                               (* :50 *)
  r_data_r : gmap string (gmap Z (gset items_t));        (* :53-55 *)
}.
Global Arguments Rel {V} D _ _ _ _ _.
Global Arguments r_doms {V D} _.
Global Arguments r_spec {V D} _.
Global Arguments r_clusters {V D} _.
Global Arguments r_data {V D} _.
Global Arguments r_data_r {V D} _.

Section Relation.
Context {V : Type} (D : Dist V).

Definition set_clusters (rel : relation D) c := Rel D (r_doms rel) (r_spec rel) c (r_data rel) (r_data_r rel).
Definition set_data (rel : relation D) x := Rel D (r_doms rel) (r_spec rel) (r_clusters rel) x (r_data_r rel).
Definition set_data_r (rel : relation D) x := Rel D (r_doms rel) (r_spec rel) (r_clusters rel) (r_data rel) x.

(** clean_relation.hh:57-67 constructor (the name is not part of the model). *)
Definition rel_new (doms : list string) (spec : d_spec D) : outcome (relation D) :=
  let* _ := assert_ (negb (bool_decide (doms = []))) in
  Ok (Rel D doms spec ∅ ∅ (foldr (fun d m => <[d := ∅]> m) ∅ doms)).

(** clean_relation.hh:75-85 [make_new_distribution]. *)
Definition make_new_distribution (rel : relation D) (r : rng) : d_state D * rng :=
  d_new D (r_spec rel) r.

(** clean_relation.hh:183-186: the loop of [get_cluster_assignment]; indexing past
    the end of [items] is undefined. *)
Fixpoint assignment_loop (W : world) (ds : list string) (es : items_t) : outcome (list Z) :=
  match ds, es with
  | [], _ => Ok []
  | _ :: _, [] => UB
  | d :: ds', e :: es' =>
    let* dm := deref W d in
    let* t := dom_get_cluster dm e in
    let* ts := assignment_loop W ds' es' in
    Ok (t :: ts)
  end.

(** clean_relation.hh:178-188 [get_cluster_assignment]. *)
Definition get_cluster_assignment (W : world) (rel : relation D) (items : items_t) : outcome (list Z) :=
  if bool_decide (length items = length (r_doms rel)) then assignment_loop W (r_doms rel) items
  else Exits.

(** clean_relation.hh:90-97: the loop of [incorporate_items]. *)
Fixpoint incorporate_loop (W : world) (idx : gmap string (gmap Z (gset items_t)))
    (ds : list string) (es items : items_t) (r : rng)
  : outcome (world * gmap string (gmap Z (gset items_t)) * rng) :=
  match ds, es with
  | [], _ => Ok (W, idx, r)
  | _ :: _, [] => UB
  | d :: ds', e :: es' =>
    let* dm := deref W d in
    let* (dm', r') := dom_incorporate dm e (-1) r in
    let* m := at_ (idx !! d) in
    let m' := <[e := {[items]} ∪ default ∅ (m !! e)]> m in
    incorporate_loop (<[d := dm']> W) (<[d := m']> idx) ds' es' items r'
  end.

(** clean_relation.hh:88-104 [incorporate_items].  [prng] is never null here. *)
Definition incorporate_items (W : world) (rel : relation D) (items : items_t) (r : rng)
  : outcome (world * relation D * list Z * rng) :=
  let* _ := assert_ (bool_decide (items ∉ dom (r_data rel))) in
  let* (W', idx', r') := incorporate_loop W (r_data_r rel) (r_doms rel) items items r in
  let rel := set_data_r rel idx' in
  let* z := get_cluster_assignment W' rel items in
  match r_clusters rel !! z with
  | Some _ => Ok (W', rel, z, r')
  | None =>
    let '(c, r'') := make_new_distribution rel r' in
    Ok (W', set_clusters rel (<[z := c]> (r_clusters rel)), z, r'')
  end.

(** clean_relation.hh:106-110 [incorporate]. *)
Definition rel_incorporate (W : world) (rel : relation D) (items : items_t) (v : V) (r : rng)
  : outcome (world * relation D * rng) :=
  let* (W', rel, z, r') := incorporate_items W rel items r in
  let rel := set_data rel (<[items := v]> (r_data rel)) in
  let* c := at_ (r_clusters rel !! z) in
  let* c' := d_inc D c v in
  Ok (W', set_clusters rel (<[z := c']> (r_clusters rel)), r').

(** clean_relation.hh:190-201 [clusters_contains]: the loop stops at the first
    entity unknown to its domain. *)
Fixpoint contains_loop (W : world) (ds : list string) (es : items_t) : outcome (option (list Z)) :=
  match ds, es with
  | [], _ => Ok (Some [])
  | _ :: _, [] => UB
  | d :: ds', e :: es' =>
    let* dm := deref W d in
    if bool_decide (e ∈ dom_items dm) then
      let* t := dom_get_cluster dm e in
      let* ts := contains_loop W ds' es' in
      Ok (match ts with Some ts => Some (t :: ts) | None => None end)
    else Ok None
  end.
Definition clusters_contains (W : world) (rel : relation D) (items : items_t) : outcome bool :=
  let* _ := assert_ (bool_decide (length items = length (r_doms rel))) in
  let* z := contains_loop W (r_doms rel) items in
  Ok (match z with Some z => bool_decide (z ∈ dom (r_clusters rel)) | None => false end).

(** clean_relation.hh:229-238 [sample_at_items].  Sampling may change the
    distribution object it is called on; for a fresh prior the object is dropped. *)
Definition sample_at_items (W : world) (rel : relation D) (items : items_t) (r : rng)
  : outcome (V * relation D * rng) :=
  let* b := clusters_contains W rel items in
  if b then
    let* z := get_cluster_assignment W rel items in
    let* c := at_ (r_clusters rel !! z) in
    let* (v, c', r') := d_sample D c r in
    Ok (v, set_clusters rel (<[z := c']> (r_clusters rel)), r')
  else
    let '(c, r1) := make_new_distribution rel r in
    let* (v, _, r') := d_sample D c r1 in
    Ok (v, rel, r').

(** clean_relation.hh:112-118 [sample_and_incorporate]. *)
Definition rel_sample_and_incorporate (W : world) (rel : relation D) (items : items_t) (r : rng)
  : outcome (V * world * relation D * rng) :=
  let* (W', rel, z, r1) := incorporate_items W rel items r in
  let* (v, rel, r2) := sample_at_items W' rel items r1 in
  let rel := set_data rel (<[items := v]> (r_data rel)) in
  let* c := at_ (r_clusters rel !! z) in
  let* c' := d_inc D c v in
  Ok (v, W', set_clusters rel (<[z := c']> (r_clusters rel)), r2).

(** clean_relation.hh:122-130: the loop of [cleanup_data]. *)
Fixpoint cleanup_loop (idx : gmap string (gmap Z (gset items_t)))
    (ds : list string) (es items : items_t) : outcome (gmap string (gmap Z (gset items_t))) :=
  match ds, es with
  | [], _ => Ok idx
  | _ :: _, [] => UB
  | d :: ds', e :: es' =>
    let* m := at_ (idx !! d) in
    let m' :=
      match m !! e with
      | None => m
      | Some s =>
        let s' := s ∖ {[items]} in
        if bool_decide (s' = ∅) then delete e m else <[e := s']> m
      end in
    cleanup_loop (<[d := m']> idx) ds' es' items
  end.

(** clean_relation.hh:121-132 [cleanup_data]. *)
Definition cleanup_data (rel : relation D) (items : items_t) : outcome (relation D) :=
  let* idx := cleanup_loop (r_data_r rel) (r_doms rel) items items in
  Ok (set_data (set_data_r rel idx) (delete items (r_data rel))).

(** clean_relation.hh:135-144 [cleanup_clusters]. *)
Definition cleanup_clusters (rel : relation D) : relation D :=
  set_clusters rel (filter (fun zc => d_N_zero D zc.2 = false) (r_clusters rel)).

(** clean_relation.hh:150-154 and :464-468: take [v] out of block [z] and erase
    the block when nothing is left in it. *)
Definition remove_from_cluster (clusters : gmap (list Z) (d_state D)) (z : list Z) (v : V)
  : outcome (gmap (list Z) (d_state D)) :=
  let* c := at_ (clusters !! z) in
  let* c' := d_uninc D c v in
  Ok (if d_N_zero D c' then delete z clusters else <[z := c']> clusters).

(** clean_relation.hh:146-156 [unincorporate]. *)
Definition rel_unincorporate (W : world) (rel : relation D) (items : items_t) : outcome (relation D) :=
  let* _ := assert_ (bool_decide (items ∈ dom (r_data rel))) in
  let* v := at_ (r_data rel !! items) in
  let* z := get_cluster_assignment W rel items in
  let* cl := remove_from_cluster (r_clusters rel) z v in
  cleanup_data (set_clusters rel cl) items.

(** clean_relation.hh:164-168 [incorporate_to_cluster]. *)
Definition incorporate_to_cluster (W : world) (rel : relation D) (items : items_t) (v : V)
  : outcome (relation D) :=
  let* z := get_cluster_assignment W rel items in
  let* _ := assert_ (bool_decide (z ∈ dom (r_clusters rel))) in
  let* c := at_ (r_clusters rel !! z) in
  let* c' := d_inc D c v in
  Ok (set_clusters rel (<[z := c']> (r_clusters rel))).

(** clean_relation.hh:489-492 [get_value]. *)
Definition get_value (rel : relation D) (items : items_t) : outcome V :=
  let* _ := assert_ (bool_decide (items ∈ dom (r_data rel))) in
  at_ (r_data rel !! items).

(** clean_relation.hh:170-176 [unincorporate_from_cluster] (no erasing). *)
Definition unincorporate_from_cluster (W : world) (rel : relation D) (items : items_t)
  : outcome (relation D) :=
  let* z := get_cluster_assignment W rel items in
  let* _ := assert_ (bool_decide (z ∈ dom (r_clusters rel))) in
  let* v := get_value rel items in
  let* c := at_ (r_clusters rel !! z) in
  let* c' := d_uninc D c v in
  Ok (set_clusters rel (<[z := c']> (r_clusters rel))).

(** clean_relation.hh:494-498 [update_value]. *)
Definition rel_update_value (W : world) (rel : relation D) (items : items_t) (v : V)
  : outcome (relation D) :=
  let* rel := unincorporate_from_cluster W rel items in
  let* rel := incorporate_to_cluster W rel items v in
  let* _ := at_ (r_data rel !! items) in
  Ok (set_data rel (<[items := v]> (r_data rel))).

(** clean_relation.hh:245-254: the loop of [get_cluster_assignment_gibbs], also
    counting the hits. *)
Fixpoint assignment_gibbs_loop (W : world) (ds : list string) (es : items_t)
    (d0 : string) (e0 t0 : Z) : outcome (list Z * nat) :=
  match ds, es with
  | [], _ => Ok ([], 0)
  | _ :: _, [] => UB
  | d :: ds', e :: es' =>
    if bool_decide (d = d0 /\ e = e0) then
      let* (ts, hits) := assignment_gibbs_loop W ds' es' d0 e0 t0 in
      Ok (t0 :: ts, S hits)
    else
      let* dm := deref W d in
      let* t := dom_get_cluster dm e in
      let* (ts, hits) := assignment_gibbs_loop W ds' es' d0 e0 t0 in
      Ok (t :: ts, hits)
  end.

(** clean_relation.hh:240-257 [get_cluster_assignment_gibbs]. *)
Definition get_cluster_assignment_gibbs (W : world) (rel : relation D) (items : items_t)
    (d0 : string) (e0 t0 : Z) : outcome (list Z) :=
  let* _ := assert_ (bool_decide (length items = length (r_doms rel))) in
  let* (z, hits) := assignment_gibbs_loop W (r_doms rel) items d0 e0 t0 in
  let* _ := assert_ (bool_decide (0 < hits)) in
  Ok z.

(** Iteration over a [std::unordered_set] / [unordered_map]: the visiting order
    is a parameter; theorems quantify over all orders that visit every element
    exactly once. *)
Notation set_order := (gset items_t -> list items_t).
Notation map_order := (gmap (list Z) (list items_t) -> list (list Z * list items_t)).

(** clean_relation.hh:458-480: body of the loop of [set_cluster_assignment_gibbs]. *)
Definition move_one (W : world) (rel : relation D) (d0 : string) (e0 t0 : Z)
    (st : gmap (list Z) (d_state D) * rng) (items : items_t)
  : outcome (gmap (list Z) (d_state D) * rng) :=
  let '(clusters, r) := st in
  let* v := at_ (r_data rel !! items) in
  let* z_prev := get_cluster_assignment W rel items in
  let* clusters := remove_from_cluster clusters z_prev v in
  let* z_new := get_cluster_assignment_gibbs W rel items d0 e0 t0 in
  match clusters !! z_new with
  | None =>
    let '(c, r) := make_new_distribution rel r in
    let* c := d_inc D c v in
    Ok (<[z_new := c]> clusters, r)
  | Some c =>
    let* _ := assert_ (d_N_pos D c) in
    let* c := d_inc D c v in
    Ok (<[z_new := c]> clusters, r)
  end.

(** clean_relation.hh:454-481 [set_cluster_assignment_gibbs]. *)
Definition rel_set_cluster (W : world) (rel : relation D) (ord : set_order)
    (d0 : string) (e0 t0 : Z) (r : rng) : outcome (relation D * rng) :=
  let* dm := deref W d0 in
  let* cur := dom_get_cluster dm e0 in
  let* _ := assert_ (bool_decide (t0 <> cur)) in
  let* m := at_ (r_data_r rel !! d0) in
  let* s := at_ (m !! e0) in
  let* (clusters, r) := foldM (move_one W rel d0 e0 t0) (r_clusters rel, r) (ord s) in
  Ok (set_clusters rel clusters, r).

(** clean_relation.hh:483-485 [has_observation]. *)
Definition has_observation (rel : relation D) (d0 : string) (e0 : Z) : outcome bool :=
  let* m := at_ (r_data_r rel !! d0) in
  Ok (bool_decide (e0 ∈ dom m)).

(** clean_relation.hh:446-452 [logp_score]. *)
Definition rel_logp_score (rel : relation D) : R :=
  map_fold (fun _ c acc => (acc + d_score D c)%R) 0%R (r_clusters rel).

(** clean_relation.hh:304-315 [get_cluster_to_items_list]. *)
Definition get_cluster_to_items_list (W : world) (rel : relation D) (ord : set_order)
    (d0 : string) (e0 : Z) : outcome (gmap (list Z) (list items_t)) :=
  let* m := at_ (r_data_r rel !! d0) in
  let* s := at_ (m !! e0) in
  foldM (fun acc items =>
    let* z := get_cluster_assignment W rel items in
    Ok (<[z := default [] (acc !! z) ++ [items]]> acc)) ∅ (ord s).

(** Loops of clean_relation.hh:322-326, :328-331, :350-354, :356-359: put all the
    values of [items_list] into a block, or take them out. *)
Definition inc_all (rel : relation D) (c : d_state D) (items_list : list items_t) : outcome (d_state D) :=
  foldM (fun c items => let* v := at_ (r_data rel !! items) in d_inc D c v) c items_list.
Definition uninc_all (rel : relation D) (c : d_state D) (items_list : list items_t) : outcome (d_state D) :=
  foldM (fun c items => let* v := at_ (r_data rel !! items) in d_uninc D c v) c items_list.

(** clean_relation.hh:333-334, :361-363: equality up to one double rounding step. *)
Definition approx_equal (x logp0 : R) : bool :=
  if Rle_dec (Rabs (x - logp0)) (/ IZR (2 ^ 52) * Rabs logp0) then true else false.

(** clean_relation.hh:317-336 [logp_gibbs_exact_current]; the block is changed in
    place and changed back. *)
Definition logp_gibbs_exact_current (W : world) (rel : relation D) (items_list : list items_t)
  : outcome (R * relation D) :=
  let* _ := assert_ (negb (bool_decide (items_list = []))) in
  let* items0 := idx_ (items_list !! 0) in
  let* z := get_cluster_assignment W rel items0 in
  let* c := at_ (r_clusters rel !! z) in
  let logp0 := d_score D c in
  let* c1 := uninc_all rel c items_list in
  let logp1 := d_score D c1 in
  let* c2 := inc_all rel c1 items_list in
  let* _ := assert_ (approx_equal (d_score D c2) logp0) in
  Ok ((logp0 - logp1)%R, set_clusters rel (<[z := c2]> (r_clusters rel))).

(** clean_relation.hh:338-366 [logp_gibbs_exact_variant]. *)
Definition logp_gibbs_exact_variant (W : world) (rel : relation D) (d0 : string) (e0 t0 : Z)
    (items_list : list items_t) (r : rng) : outcome (R * relation D * rng) :=
  let* _ := assert_ (negb (bool_decide (items_list = []))) in
  let* items0 := idx_ (items_list !! 0) in
  let* z := get_cluster_assignment_gibbs W rel items0 d0 e0 t0 in
  let '(prior, r) := make_new_distribution rel r in
  let c := default prior (r_clusters rel !! z) in
  let logp0 := d_score D c in
  let* c1 := inc_all rel c items_list in
  let logp1 := d_score D c1 in
  let* c2 := uninc_all rel c1 items_list in
  let* _ := assert_ (approx_equal (d_score D c2) logp0) in
  Ok ((logp1 - logp0)%R,
      match r_clusters rel !! z with
      | Some _ => set_clusters rel (<[z := c2]> (r_clusters rel))
      | None => rel
      end, r).

(** clean_relation.hh:377-383: the inner loop of [logp_gibbs_exact], for one table. *)
Definition logp_gibbs_exact_table (W : world) (d0 : string) (e0 cur t0 : Z)
    (groups : list (list Z * list items_t)) (rel : relation D) (r : rng)
  : outcome (R * relation D * rng) :=
  foldM (fun '(lp, rel, r) '(_, items_list) =>
    if bool_decide (t0 = cur) then
      let* (x, rel) := logp_gibbs_exact_current W rel items_list in
      Ok ((lp + x)%R, rel, r)
    else
      let* (x, rel, r) := logp_gibbs_exact_variant W rel d0 e0 t0 items_list r in
      Ok ((lp + x)%R, rel, r)) (0%R, rel, r) groups.

(** clean_relation.hh:368-388 [logp_gibbs_exact]. *)
Definition logp_gibbs_exact (W : world) (rel : relation D) (ord : set_order) (mord : map_order)
    (d0 : string) (e0 : Z) (tables : list Z) (r : rng) : outcome (list R * relation D * rng) :=
  let* groups := get_cluster_to_items_list W rel ord d0 e0 in
  let* dm := deref W d0 in
  let* cur := dom_get_cluster dm e0 in
  foldM (fun '(logps, rel, r) t =>
    let* (lp, rel, r) := logp_gibbs_exact_table W d0 e0 cur t (mord groups) rel r in
    Ok (logps ++ [lp], rel, r)) ([], rel, r) tables.

(** clean_relation.hh:512-519 [transition_cluster_hparams], in some order of the
    blocks; [d_resample] stands for the parameter steps followed by the
    hyperparameter step. *)
Definition transition_cluster_hparams (rel : relation D)
    (ord : gmap (list Z) (d_state D) -> list (list Z)) (r : rng) : outcome (relation D * rng) :=
  foldM (fun '(rel, r) z =>
    let* c := at_ (r_clusters rel !! z) in
    let* (c', r') := d_resample D c r in
    Ok (set_clusters rel (<[z := c']> (r_clusters rel)), r')) (rel, r) (ord (r_clusters rel)).

(** clean_relation.hh:521-530 [nearest]. *)
Definition rel_nearest (W : world) (rel : relation D) (v : V) (items : items_t) (r : rng)
  : outcome (V * rng) :=
  let* z := get_cluster_assignment W rel items in
  match r_clusters rel !! z with
  | Some c => let* n := d_nearest D c v in Ok (n, r)
  | None =>
    let '(c, r') := make_new_distribution rel r in
    let* n := d_nearest D c v in
    Ok (n, r')
  end.
End Relation.
Notation set_order := (gset items_t -> list items_t).
Notation map_order := (gmap (list Z) (list items_t) -> list (list Z * list items_t)).
