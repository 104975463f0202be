(** Model of cxx/domain.hh. *)
From stdpp Require Import gmap.
From Coq Require Import ZArith Reals.
From Verif Require Import M_base M_crp.

(** domain.hh:14-20; the name of a domain is its key in the map that holds it. *)
Record domain := Dom {
  dom_items : gset Z;
  dom_crp : crp;
}.

(** domain.hh:20 [Domain::Domain] (names are never empty in the model). *)
Definition dom_new : domain := Dom ∅ crp_new.

(** domain.hh:21-32 [Domain::incorporate]; [table < 0] means "sample". *)
Definition dom_incorporate (d : domain) (item table : Z) (r : rng) : outcome (domain * rng) :=
  if bool_decide (item ∈ dom_items d) then
    let* _ := assert_ (bool_decide (table = (-1)%Z)) in
    Ok (d, r)
  else
    let* (t, r') :=
      if bool_decide (0 <= table)%Z then Ok (table, r) else crp_sample (dom_crp d) r in
    let* c := crp_incorporate (dom_crp d) item t in
    Ok (Dom ({[item]} ∪ dom_items d) c, r').

(** domain.hh:33-37 [Domain::unincorporate]. *)
Definition dom_unincorporate (d : domain) (item : Z) : outcome domain :=
  let* _ := assert_ (bool_decide (item ∈ dom_items d)) in
  let* c := crp_unincorporate (dom_crp d) item in
  Ok (Dom (dom_items d ∖ {[item]}) c).

(** domain.hh:38-41 [Domain::get_cluster_assignment]. *)
Definition dom_get_cluster (d : domain) (item : Z) : outcome Z :=
  let* _ := assert_ (bool_decide (item ∈ dom_items d)) in
  at_ (crp_assignments (dom_crp d) !! item).

(** domain.hh:42-47 [Domain::set_cluster_assignment_gibbs]. *)
Definition dom_set_cluster (d : domain) (item table : Z) : outcome domain :=
  let* _ := assert_ (bool_decide (item ∈ dom_items d)) in
  let* t := at_ (crp_assignments (dom_crp d) !! item) in
  let* _ := assert_ (bool_decide (t <> table)) in
  let* c := crp_unincorporate (dom_crp d) item in
  let* c' := crp_incorporate c item table in
  Ok (Dom (dom_items d) c').

(** domain.hh:51-55 [Domain::tables_weights_gibbs]. *)
Definition dom_tables_weights_gibbs (d : domain) (item : Z) : outcome (gmap Z R) :=
  let* t := dom_get_cluster d item in
  crp_tables_weights_gibbs (dom_crp d) t.
