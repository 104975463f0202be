(** Specification vocabulary for a GenDB under inference. *)
From Coq Require Import String Ascii.
From stdpp Require Import gmap strings list relations.
From Coq Require Import ZArith Reals.
From Verif Require Import M_base M_crp M_relation M_noisy M_irm M_hirm M_inference M_schema M_pclean_io M_gendb M_gendb_rels M_gendb_state M_pclean M_gendb_trans
  S_crp S_crp_state S_irm S_gendb S_gendb_rels S_gendb_state.
Local Open Scope nat_scope.

(** Whatever order a container is visited in, each of its elements is visited once. *)
Definition torders_ok (to : torders) : Prop :=
  (forall s, to_seats to s ≡ₚ elements s) /\ (forall s, to_freed to s ≡ₚ elements s) /\ (forall s, to_refs to s ≡ₚ elements s).

(** The states of a GenDB whose entities are resampled as well: after construction, rows
    (either way), samples, iterations of inference on its HIRM, and resampling a reference of
    an entity of a class that the record class reaches, in any number and order. *)
Inductive gendb_life {V} (rid : hash_fn) (build : hdecl -> t_rel V) (show : V -> string) (only_final record_is_clean : bool) (s : pschema)
  : gendb V -> Prop :=
| GL_new fuel r g r' : gendb_new fuel build only_final record_is_clean s r = Ok (g, r') ->
    gendb_life rid build show only_final record_is_clean s g
| GL_row g unique i vals r g' r' : gendb_life rid build show only_final record_is_clean s g ->
    gendb_incorporate rid unique g i vals r = Ok (g', r') -> gendb_life rid build show only_final record_is_clean s g'
| GL_sample g i r vals g' r' : gendb_life rid build show only_final record_is_clean s g ->
    pclean_sample show rid g i r = Ok (vals, g', r') -> gendb_life rid build show only_final record_is_clean s g'
| GL_infer g lg o late k n r h' r' : gendb_life rid build show only_final record_is_clean s g -> (forall j, orders_ok (o j)) ->
    inference_hirm lg o late k n (g_hirm g) r = Ok (h', r') -> gendb_life rid build show only_final record_is_clean s (g_set g (g_ents g) h')
| GL_move g o to c f i r r2 g' r' : gendb_life rid build show only_final record_is_clean s g -> orders_ok o -> torders_ok to ->
    rtc (references (ps_classes s)) (pq_record (ps_query s)) c ->
    transition_reference rid o to g c f i r r2 = Ok (g', r') -> gendb_life rid build show only_final record_is_clean s g'.

(** [v] is the value of row [k] in the query field [q]: the observation whose last item is [k]. *)
Definition cell {V} (g : gendb V) (q : string) (k : Z) (v : V) : Prop := exists l, observed (g_hirm g) q l v /\ last l = Some k.
(** The same table: the query fields have the same values for the same rows. *)
Definition same_cells {V} (s : pschema) (g g' : gendb V) : Prop :=
  forall q, is_Some (pq_fields (ps_query s) !! q) -> forall k v, cell g' q k v <-> cell g q k v.
(** [build] marks the relations that are observed as declared. *)
Definition marks_observed {V} (build : hdecl -> t_rel V) : Prop := forall d, t_observed (build d) = d.1.
