(** Specification vocabulary for the state of a GenDB. *)
From Coq Require Import String Ascii.
From stdpp Require Import gmap strings list.
From Coq Require Import ZArith Reals.
From Verif Require Import M_base M_crp M_relation M_noisy M_irm M_hirm M_schema M_pclean_io M_gendb M_gendb_rels M_gendb_state M_pclean M_gendb_trans
  S_crp S_crp_state S_irm S_gendb S_gendb_rels.
Local Open Scope nat_scope.

(** Reference field [f] of entity [i] of class [c] is the entity [x]. *)
Definition recorded (e : ents) (c f : string) (i x : Z) : Prop := exists m, en_refs e !! c = Some m /\ m !! (f, i) = Some x.

(** References and entity clusterings agree: the customers of the CRP of class [k] are the
    recorded references to [k], each at the table of the entity it refers to. *)
Record ents_agree (rid : hash_fn) (cs : gmap string pclass) (e : ents) : Prop := {
  ea_refs : dom (en_refs e) = dom cs;
  ea_crps : dom (en_crps e) = dom cs;
  ea_fields : forall c f i x, recorded e c f i x -> exists k, refers cs c f k;
  ea_seated : forall k crp, en_crps e !! k = Some crp -> exists a, holds_seating crp a /\
    forall id x, a !! id = Some x <-> exists c f i, refers cs c f k /\ recorded e c f i x /\ rid c f i = id;
  ea_distinct : forall k c f i x c' f' i' x', refers cs c f k -> refers cs c' f' k ->
    recorded e c f i x -> recorded e c' f' i' x' -> rid c f i = rid c' f' i' -> c = c' /\ f = f' /\ i = i';
}.
(** No recorded reference is changed or lost. *)
Definition ents_grow (e e' : ents) : Prop := forall c f i x, recorded e c f i x -> recorded e' c f i x.

(** A noisy relation has the same observations with and without the base values. *)
Definition coherent {V} (a : any_rel V) : Prop :=
  match a with AClean _ _ => True | ANoisy n => dom (n_data n) = dom (r_data (n_rel n)) end.
(** The index of a relation lists every observation under each of its entities. *)
Definition indexed {V} (a : any_rel V) : Prop := forall l j d e, is_Some (any_data a !! l) -> any_doms a !! j = Some d -> l !! j = Some e ->
  exists m s, any_data_r a !! d = Some m /\ m !! e = Some s /\ l ∈ s.
(** The relation [a'] is declared as [a] and as well kept. *)
Definition as_well {V} (a a' : any_rel V) : Prop :=
  any_type a' true = any_type a true /\ (coherent a -> coherent a') /\ (indexed a -> indexed a').
(** Observations of the same items in relations of the same declarations, in whatever
    clusters and (inference resamples the values of unobserved relations) with whatever
    values. *)
Definition same_tuples {V} (h h' : hirm V) : Prop :=
  h_schema h' = h_schema h /\ h_code h' = h_code h /\
  forall n, match hirm_lookup h n, hirm_lookup h' n with
            | Some a, Some a' => dom (any_data a') = dom (any_data a) /\ as_well a a'
            | None, None => True
            | _, _ => False
            end.

(** The states of a GenDB: after construction, rows (either way), samples, and inference on
    its HIRM, which keeps the observed items in place (C65_inference_is_GR_infer). *)
Inductive gendb_reach {V} (rid : hash_fn) (build : hdecl -> t_rel V) (show : V -> string) (only_final record_is_clean : bool) (s : pschema)
  : gendb V -> Prop :=
| GR_new fuel r g r' : gendb_new fuel build only_final record_is_clean s r = Ok (g, r') ->
    gendb_reach rid build show only_final record_is_clean s g
| GR_row g unique i vals r g' r' : gendb_reach rid build show only_final record_is_clean s g ->
    gendb_incorporate rid unique g i vals r = Ok (g', r') -> gendb_reach rid build show only_final record_is_clean s g'
| GR_sample g i r vals g' r' : gendb_reach rid build show only_final record_is_clean s g ->
    pclean_sample show rid g i r = Ok (vals, g', r') -> gendb_reach rid build show only_final record_is_clean s g'
| GR_infer g h' : gendb_reach rid build show only_final record_is_clean s g -> same_tuples (g_hirm g) h' ->
    gendb_reach rid build show only_final record_is_clean s (g_set g (g_ents g) h').

(** The item vector of entity [i] of class [c]: those of the entities its reference fields
    refer to, by field name, and [i] itself. *)
Inductive class_vector (cs : gmap string pclass) (e : ents) : string -> Z -> items_t -> Prop :=
| CV c cl i fks ls : cs !! c = Some cl -> reference_fields cl fks -> class_vectors cs e c i fks ls ->
    class_vector cs e c i (concat ls ++ [i])
with class_vectors (cs : gmap string pclass) (e : ents) : string -> Z -> list (string * string) -> list items_t -> Prop :=
| CV_nil c i : class_vectors cs e c i [] []
| CV_cons c i f k x l fks ls : recorded e c f i x -> class_vector cs e k x l -> class_vectors cs e c i fks ls ->
    class_vectors cs e c i ((f, k) :: fks) (l :: ls).
(** The item vector of entity [i] of class [c] for a path of reference fields: that of the
    entity of the last class, followed by the entities of the path from there to [i]. *)
Inductive path_vector (cs : gmap string pclass) (e : ents) : string -> list string -> Z -> items_t -> Prop :=
| PV_here c i l : class_vector cs e c i l -> path_vector cs e c [] i l
| PV_step c f k fs i x l : refers cs c f k -> recorded e c f i x -> path_vector cs e k fs x l ->
    path_vector cs e c (f :: fs) i (l ++ [i]).

(** The item vectors of the relations of a PClean schema with an emission for every class of
    a path, by the names of the relations. *)
Inductive relation_vector (s : pschema) (e : ents) : string -> items_t -> Prop :=
| RV_attribute c v j ps i l : attribute (ps_classes s) c v j ps -> class_vector (ps_classes s) e c i l ->
    relation_vector s e (c +:+ ":" +:+ v) l
| RV_record f v i l : pq_fields (ps_query s) !! f = Some [v] -> class_vector (ps_classes s) e (pq_record (ps_query s)) i l ->
    relation_vector s e f l
| RV_chain f f1 v0 f2 k1 k k2 z v i l : queries s f (f1 ++ v0 :: f2) (k1 ++ k :: k2) z v -> length f1 = length k1 ->
    path_vector (ps_classes s) e k (v0 :: f2) i l ->
    relation_vector s e (match k1 with [] => f | _ => k +:+ "::" +:+ f end) l.
(** The observation [v] of relation [n] for the items [l]. *)
Definition observed {V} (h : hirm V) (n : string) (l : items_t) (v : V) : Prop :=
  exists a, hirm_lookup h n = Some a /\ any_data a !! l = Some v.
(** [build] makes relations with the domains and bases of their declarations. *)
Definition faithful {V} (build : hdecl -> t_rel V) : Prop := forall d,
  t_domains (build d) = decl_domains d.2 /\ t_base (build d) = match d.2 with Clean _ _ => None | NoisyOf _ _ b => Some b end.
(** Every new reference has an entity of its own. *)
Definition own_entities (cs : gmap string pclass) (e e' : ents) : Prop := forall k c f i c' f' i' x,
  refers cs c f k -> refers cs c' f' k -> recorded e' c f i x -> recorded e' c' f' i' x ->
  (recorded e c f i x /\ recorded e c' f' i' x) \/ (c = c' /\ f = f' /\ i = i').
