(** Model of [from_txt] of cxx/util_io.cc: building an IRM or a HIRM from a schema, an
    observation file and a cluster file.  Simplification: the schema and the observations
    are those already read ([load_schema]: M_schema; [load_observations] and
    [calculate_encoding]: M_io); the cluster file is its text. *)
From Coq Require Import String Ascii.
From stdpp Require Import gmap strings list.
From Coq Require Import ZArith Reals.
From Verif Require Import M_base M_crp M_domain M_dist M_relation M_noisy M_irm M_hirm M_text M_io M_clusters.
Local Open Scope nat_scope.

Section Restore.
Context {V : Type} (parse : string -> string -> outcome V).

(** util_io.cc:636-666 [from_txt] for an IRM just made without relations. *)
Definition irm_from_txt (o : orders) (schema : gmap string (t_rel V)) (obs : observations) (enc : encoding)
    (file : text) (r : rng) : outcome (irm V * rng) :=
  let* cl := load_clusters_irm file in
  let* ir := foldM (fun ir name =>
    let* t := at_ (schema !! name) in irm_add_relation ir name t) irm_empty (sorted_names schema) in
  let* (W, r) := seat_clusters (enc_f enc) cl (i_domains ir) r in
  incorporate_observations irm_ops parse o (i_set_domains ir W) enc obs r.

(** util_io.cc:682 and others: [assert(hirm->irms.size() == hirm->crp.tables.size())]. *)
Definition assert_sizes (h : hirm V) : outcome unit :=
  assert_ (bool_decide (size (h_irms h) = size (crp_tables (h_crp h)))).
(** util_io.cc:680-684: declare a relation and put it in cluster -1. *)
Definition declare_relation (o : orders) (schema : gmap string (t_rel V)) (st : hirm V * rng) (name : string)
  : outcome (hirm V * rng) :=
  let '(h, r) := st in
  let* t := at_ (schema !! name) in
  let* (h, r) := hirm_add_relation h name t r in
  let* _ := assert_sizes h in
  hirm_set_cluster o h name (-1) r.
(** util_io.cc:689-696: put a relation in its cluster. *)
Definition place_relation (o : orders) (table : Z) (st : hirm V * rng) (name : string) : outcome (hirm V * rng) :=
  let '(h, r) := st in
  let* _ := assert_sizes h in
  let* cur := relation_to_table h name in
  if bool_decide (cur = table) then Ok (h, r)
  else
    let* _ := assert_sizes h in
    hirm_set_cluster o h name table r.
(** util_io.cc:686-713: one cluster of relations and the clusters of its domains. *)
Definition place_irm (o : orders) (fwd : gmap string (gmap string Z)) (rels : gmap Z (list string)) (irms : gmap Z clusters)
    (st : hirm V * rng) (table : Z) : outcome (hirm V * rng) :=
  let* _ := assert_sizes st.1 in
  let rs := default [] (rels !! table) in
  let* (h, r) := foldM (place_relation o table) st rs in
  let* ir := at_ (h_irms h !! table) in
  let* cl := at_ (irms !! table) in
  let* _ := assert_ (bool_decide (size (i_rels ir) = length rs)) in
  let* (W, r) := seat_clusters fwd cl (i_domains ir) r in
  Ok (h_set_irms h (<[table := i_set_domains ir W]> (h_irms h)), r).
(** util_io.cc:676-714: everything but the observations. *)
Definition hirm_place (o : orders) (schema : gmap string (t_rel V)) (fwd : gmap string (gmap string Z))
    (rels : gmap Z (list string)) (irms : gmap Z clusters) (r : rng) : outcome (hirm V * rng) :=
  let* (h, r) := foldM (declare_relation o schema) (hirm_empty, r) (sorted_names schema) in
  let* (h, r) := foldM (place_irm o fwd rels irms) (h, r) (sorted_keys rels) in
  let* _ := assert_ (bool_decide ((-1)%Z ∉ dom (h_irms h))) in
  Ok (h, r).
(** util_io.cc:668-717 [from_txt] for a HIRM just made without relations. *)
Definition hirm_from_txt (o : orders) (schema : gmap string (t_rel V)) (obs : observations) (enc : encoding)
    (file : text) (r : rng) : outcome (hirm V * rng) :=
  let* (rels, irms) := load_clusters_hirm file in
  let* (h, r) := hirm_place o schema (enc_f enc) rels irms r in
  incorporate_observations hirm_ops parse o h enc obs r.
End Restore.
