(** GenDB: entities, their references, and incorporating rows.  gendb.hh, gendb.cc:18-307. *)
From Coq Require Import String Ascii.
From stdpp Require Import gmap strings list sorting.
From Coq Require Import ZArith Reals.
From Verif Require Import M_base M_crp M_domain M_dist M_relation M_noisy M_irm M_hirm M_schema M_pclean_io M_gendb M_gendb_rels.
Local Open Scope nat_scope.

(** gendb.hh:232-244: [reference_values] and [entity_crps]. *)
Record ents := Ents {
  en_refs : gmap string (gmap (string * Z) Z);
  en_crps : gmap string crp;
}.

(** gendb.cc:147-156 [get_reference_id] is [std::hash] of the text "class item field",
    truncated to an [int].  The hash function is a parameter of the model. *)
Notation hash_fn := (string -> string -> Z -> Z).

(** gendb.cc:96-99 and :167-170: record the value of a reference and seat its customer. *)
Definition put_reference (rid : hash_fn) (e : ents) (c f : string) (i : Z) (k : string) (x : Z) : outcome ents :=
  let* m := at_ (en_refs e !! c) in
  let* crp := at_ (en_crps e !! k) in
  let* crp' := crp_incorporate crp (rid c f i) x in
  Ok (Ents (<[c := <[(f, i) := x]> m]> (en_refs e)) (<[k := crp']> (en_crps e))).

(** gendb.cc:160-171 [sample_and_incorporate_reference]. *)
Definition sample_reference (rid : hash_fn) (e : ents) (c f : string) (i : Z) (k : string) (r : rng) : outcome (ents * rng) :=
  let* crp := at_ (en_crps e !! k) in
  let* (x, r') := crp_sample crp r in
  let* e' := put_reference rid e c f i k x in
  Ok (e', r').
(** gendb.cc:128-136, :250-255: the value of a reference, sampled if there is none. *)
Definition get_reference (rid : hash_fn) (e : ents) (c f : string) (i : Z) (k : string) (r : rng) : outcome (Z * ents * rng) :=
  let* m := at_ (en_refs e !! c) in
  let* (e, r) := match m !! (f, i) with
                 | Some _ => Ok (e, r)
                 | None => sample_reference rid e c f i k r
                 end in
  let* m := at_ (en_refs e !! c) in
  let* x := at_ (m !! (f, i)) in
  Ok (x, e, r).

(** gendb.cc:239-264 [sample_class_ancestors]; [fuel] bounds the depth of the recursion. *)
Definition ancestors_step (rec : ents -> string -> Z -> rng -> outcome (items_t * ents * rng)) (rid : hash_fn)
    (cl : pclass) (c : string) (i : Z) (st : items_t * ents * rng) (v : string) : outcome (items_t * ents * rng) :=
  let '(items, e, r) := st in
  match cl !! v with
  | Some (PClassVar k) =>
    let* (x, e, r) := get_reference rid e c v i k r in
    let* (l, e, r) := rec e k x r in
    Ok (items ++ l, e, r)
  | _ => Ok (items, e, r)
  end.
Fixpoint class_ancestors (fuel : nat) (rid : hash_fn) (cs : gmap string pclass) (e : ents) (c : string) (i : Z) (r : rng)
  : outcome (items_t * ents * rng) :=
  match fuel with
  | 0 => OutOfFuel
  | S fuel' =>
    let* _ := assert_ (bool_decide (c ∈ dom cs)) in
    let* cl := at_ (cs !! c) in
    let* (items, e, r) := foldM (ancestors_step (class_ancestors fuel' rid cs) rid cl c i) ([], e, r) (sorted_names cl) in
    Ok (items ++ [i], e, r)
  end.

(** gendb.cc:112-145 [sample_entities_relation]; an empty class path dereferences the end
    of a vector. *)
Fixpoint path_entities (fuel : nat) (rid : hash_fn) (cs : gmap string pclass) (e : ents) (c : string) (path : list string)
    (i : Z) (r : rng) : outcome (items_t * ents * rng) :=
  match path with
  | [] => UB
  | [_] => class_ancestors fuel rid cs e c i r
  | f :: path' =>
    let* cl := at_ (cs !! c) in
    let* v := at_ (cl !! f) in
    match v with
    | PScalar _ _ => Throws
    | PClassVar k =>
      let* (x, e, r) := get_reference rid e c f i k r in
      let* (items, e, r) := path_entities fuel rid cs e k path' x r in
      Ok (items ++ [i], e, r)
    end
  end.

(** [items[ind] = x] on a [std::vector]. *)
Definition put_item (items : items_t) (ind : nat) (x : Z) : outcome items_t :=
  if bool_decide (ind < length items) then Ok (<[ind := x]> items) else UB.

(** gendb.cc:82-106 [get_unique_entities_relation], for a relation with the domains [ds] and
    the links [r]; [fuel] bounds the depth of the recursion. *)
Definition unique_reference (rid : hash_fn) (e : ents) (c f : string) (i : Z) (k : outcome string) : outcome (Z * ents) :=
  let* m := at_ (en_refs e !! c) in
  let* e := match m !! (f, i) with
            | Some _ => Ok e
            | None =>
              let* k := k in
              let* crp := at_ (en_crps e !! k) in
              let* mx := crp_max_table crp in
              put_reference rid e c f i k (mx + 1)
            end in
  let* m := at_ (en_refs e !! c) in
  let* x := at_ (m !! (f, i)) in
  Ok (x, e).
Definition unique_step (rec : ents * items_t -> nat -> Z -> outcome (ents * items_t)) (rid : hash_fn) (ds : list string)
    (ind : nat) (i : Z) (m : gmap string nat) (st : ents * items_t) (f : string) : outcome (ents * items_t) :=
  let '(e, items) := st in
  let* j := at_ (m !! f) in
  let* c := idx_ (ds !! ind) in
  let* (x, e) := unique_reference rid e c f i (at_ (ds !! j)) in
  rec (e, items) j x.
Fixpoint unique_entities (fuel : nat) (rid : hash_fn) (ds : list string) (r : links) (st : ents * items_t) (ind : nat) (i : Z)
  : outcome (ents * items_t) :=
  match fuel with
  | 0 => OutOfFuel
  | S fuel' =>
    let '(e, items) := st in
    let* items := put_item items ind i in
    match r !! ind with
    | None => Ok (e, items)
    | Some m => foldM (unique_step (unique_entities fuel' rid ds r) rid ds ind i m) (e, items) (sorted_names m)
    end
  end.

(** gendb.cc:270-285 [get_relation_items]. *)
Definition items_step (rec : items_t -> nat -> Z -> outcome items_t) (refs : gmap string (gmap (string * Z) Z)) (ds : list string)
    (ind : nat) (i : Z) (m : gmap string nat) (items : items_t) (f : string) : outcome items_t :=
  let* j := at_ (m !! f) in
  let* c := at_ (ds !! ind) in
  let* mc := at_ (refs !! c) in
  let* x := at_ (mc !! (f, i)) in
  rec items j x.
Fixpoint relation_items (fuel : nat) (refs : gmap string (gmap (string * Z) Z)) (ds : list string) (r : links)
    (items : items_t) (ind : nat) (i : Z) : outcome items_t :=
  match fuel with
  | 0 => OutOfFuel
  | S fuel' =>
    let* items := put_item items ind i in
    match r !! ind with
    | None => Ok items
    | Some m => foldM (items_step (relation_items fuel' refs ds r) refs ds ind i m) items (sorted_names m)
    end
  end.
(** The item vector of a relation for a given last item: a vector of zeros is filled.
    A relation without domains would make the index negative.  The links go to smaller
    positions, so the number of domains bounds the depth. *)
Definition items_for (refs : gmap string (gmap (string * Z) Z)) (ds : list string) (r : links) (i : Z) : outcome items_t :=
  match length ds with
  | 0 => UB
  | S n => relation_items (S n) refs ds r (replicate (S n) 0%Z) n i
  end.
Definition unique_items_for (rid : hash_fn) (e : ents) (ds : list string) (r : links) (i : Z) : outcome (ents * items_t) :=
  match length ds with
  | 0 => UB
  | S n => unique_entities (S n) rid ds r (e, replicate (S n) 0%Z) n i
  end.

Section Gendb.
Context {V : Type}.

(** gendb.hh:229-258.  [g_fuel] bounds the depth of recursions over the class graph. *)
Record gendb := Gendb {
  g_schema : pschema;
  g_links : gmap string links;                (* relation_reference_indices *)
  g_rels : gmap string (list string);         (* class_to_relations *)
  g_ents : ents;
  g_hirm : hirm V;
  g_fuel : nat;
}.
Definition g_set (g : gendb) (e : ents) (h : hirm V) : gendb := Gendb (g_schema g) (g_links g) (g_rels g) e h (g_fuel g).

(** gendb.cc:35-39. *)
Definition push_relation (schema : gmap string (t_rel V)) (m : gmap string (list string)) (n : string)
  : outcome (gmap string (list string)) :=
  let* t := at_ (schema !! n) in
  let* c := idx_ (last (t_domains t)) in
  Ok (<[c := default [] (m !! c) ++ [n]]> m).
(** gendb.cc:18-40 [GenDB::GenDB].  [build] makes the relation of a declaration with its
    distribution or emission class. *)
Definition gendb_new (fuel : nat) (build : hdecl -> t_rel V) (only_final record_is_clean : bool) (s : pschema) (r : rng)
  : outcome (gendb * rng) :=
  let* dm := compute_domains fuel (ps_classes s) in
  let* refs := compute_refs fuel (ps_classes s) dm in
  let* m := make_hirm_schema only_final record_is_clean s dm refs in
  let* (h, r) := hirm_new (build <$> md_rels m) r in
  let* rels := foldM (push_relation (h_schema h)) ∅ (sorted_names (h_schema h)) in
  Ok (Gendb s (md_refs m) rels
        (Ents ((fun _ => ∅) <$> ps_classes s) ((fun _ => crp_new) <$> ps_classes s)) h fuel, r).

(** The links of a relation; a relation without an entry has none (gendb.cc:89, :275). *)
Definition links_of (g : gendb) (n : string) : links := default ∅ (g_links g !! n).

(** noisy_relation.hh [get_base_items] of the relation [n]; gendb.cc:183-190, :214-221. *)
Definition base_items_of (h : hirm V) (n : string) (items : items_t) : outcome items_t :=
  let* a := get_relation h n in
  let* nr := as_noisy a in
  let* b := base_of (hirm_lookup h) nr in
  get_base_items b items.

(** gendb.cc:201-233 [sample_and_incorporate_for_class]. *)
Definition for_class_step (rec : gendb -> string -> Z -> rng -> outcome (gendb * rng)) (rid : hash_fn) (c : string) (i : Z)
    (st : gendb * rng) (n : string) : outcome (gendb * rng) :=
  let '(g, r) := st in
  let* (_, e, r) := class_ancestors (g_fuel g) rid (ps_classes (g_schema g)) (g_ents g) c i r in
  let g := g_set g e (g_hirm g) in
  let* t := at_ (h_schema (g_hirm g) !! n) in
  let* items := items_for (en_refs e) (t_domains t) (links_of g n) i in
  let* (g, r) :=
    match t with
    | TClean _ _ _ _ => Ok (g, r)
    | TNoisy _ _ _ _ base =>
      let* bi := base_items_of (g_hirm g) n items in
      let* tb := at_ (h_schema (g_hirm g) !! base) in
      let* c' := idx_ (last (t_domains tb)) in
      let* i' := idx_ (last bi) in
      rec g c' i' r
    end in
  let* a := get_relation (g_hirm g) n in
  if bool_decide (items ∈ dom (any_data a)) then Ok (g, r)
  else
    let* (_, h, r) := hirm_sample_relation (S (size (h_schema (g_hirm g)))) (g_hirm g) n items r in
    Ok (g_set g (g_ents g) h, r).
Fixpoint for_class (fuel : nat) (rid : hash_fn) (g : gendb) (c : string) (i : Z) (r : rng) : outcome (gendb * rng) :=
  match fuel with
  | 0 => OutOfFuel
  | S fuel' =>
    let* ns := at_ (g_rels g !! c) in
    foldM (for_class_step (for_class fuel' rid) rid c i) (g, r) ns
  end.

(** gendb.cc:175-196 [incorporate_query_relation]. *)
Definition incorporate_query (rid : hash_fn) (g : gendb) (q : string) (items : items_t) (v : V) (r : rng) : outcome (gendb * rng) :=
  let* t := at_ (h_schema (g_hirm g) !! q) in
  let* (g, r) :=
    match t with
    | TClean _ _ _ _ => Ok (g, r)
    | TNoisy _ _ _ _ base =>
      let* bi := base_items_of (g_hirm g) q items in
      let* tb := at_ (h_schema (g_hirm g) !! base) in
      let* c := idx_ (last (t_domains tb)) in
      let* i := idx_ (last bi) in
      for_class (g_fuel g) rid g c i r
    end in
  let* (h, r) := hirm_incorporate (g_hirm g) q items v r in
  Ok (g_set g (g_ents g) h, r).

(** gendb.cc:50-80 [incorporate]: one value of a row. *)
Definition query_items (rid : hash_fn) (unique : bool) (g : gendb) (q : string) (i : Z) (r : rng) : outcome (items_t * gendb * rng) :=
  let s := g_schema g in
  let* path := at_ (pq_fields (ps_query s) !! q) in
  if unique then
    let* t := at_ (h_schema (g_hirm g) !! q) in
    let* (e, items) := unique_items_for rid (g_ents g) (t_domains t) (links_of g q) i in
    Ok (items, g_set g e (g_hirm g), r)
  else
    let* (items, e, r) := path_entities (g_fuel g) rid (ps_classes s) (g_ents g) (pq_record (ps_query s)) path i r in
    Ok (items, g_set g e (g_hirm g), r).
Definition incorporate_step (rid : hash_fn) (unique : bool) (i : Z) (vals : gmap string V) (st : gendb * rng) (q : string)
  : outcome (gendb * rng) :=
  let '(g, r) := st in
  let* v := at_ (vals !! q) in
  let* (items, g, r) := query_items rid unique g q i r in
  incorporate_query rid g q items v r.
Definition gendb_incorporate (rid : hash_fn) (unique : bool) (g : gendb) (i : Z) (vals : gmap string V) (r : rng)
  : outcome (gendb * rng) :=
  foldM (incorporate_step rid unique i vals) (g, r) (sorted_names vals).

(** gendb.cc:289-307 [get_domain_inds]. *)
Definition inds_of_relation (g : gendb) (c f n : string) (ds : list string) : outcome (list nat) :=
  foldM (fun acc ind =>
    if bool_decide (ds !! ind = Some c) then
      let* r := at_ (g_links g !! n) in
      let* m := at_ (r !! ind) in
      Ok (if bool_decide (f ∈ dom (m : gmap string nat)) then acc ++ [ind] else acc)
    else Ok acc) [] (seq 0 (length ds)).
Definition domain_inds (g : gendb) (c f : string) : outcome (gmap string (list nat)) :=
  foldM (fun acc n =>
    let* t := at_ (h_schema (g_hirm g) !! n) in
    let* inds := inds_of_relation g c f n (t_domains t) in
    Ok (if bool_decide (inds = []) then acc else <[n := inds]> acc)) ∅ (sorted_names (pq_fields (ps_query (g_schema g)))).
End Gendb.
Global Arguments gendb V : clear implicits.
