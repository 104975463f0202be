(** GenDB: resampling the reference of an entity.  gendb.cc:310-883, inference.cc:73-90.
    Log probabilities are [option R], [None] being minus infinity. *)
From Coq Require Import String Ascii.
From stdpp Require Import gmap strings list sorting.
From Coq Require Import ZArith Reals.
From Verif Require Import M_base M_math M_crp M_domain M_dist M_relation M_noisy M_irm M_logp M_hirm M_inference
  M_schema M_pclean_io M_gendb M_gendb_rels M_gendb_state.
Local Open Scope nat_scope.

(** gendb.hh: (IRM, class, entity) -> cluster of a domain. *)
Notation seats := (gmap (Z * string * Z) Z).
(** gendb.hh: (class, field, entity) -> entity referred to. *)
Notation freed := (gmap (string * string * Z) Z).

(** The orders in which containers keyed by tuples are visited.  They are [std::map]s, so
    the code visits them in key order; the model allows any order. *)
Record torders := Torders {
  to_seats : gset (Z * string * Z) -> list (Z * string * Z);
  to_freed : gset (string * string * Z) -> list (string * string * Z);
  to_refs : gset (string * Z) -> list (string * Z);
}.

Section Trans.
Context {V : Type}.
(** gendb.hh: relation -> items -> value, the observations taken out. *)
Notation store := (gmap string (gmap items_t V)).
Implicit Types (h : hirm V) (g : gendb V) (a : any_rel V) (st : store).

(** clean_relation.hh:121-132, noisy_relation.hh:105-109 [cleanup_data]. *)
Definition any_cleanup_data (lk : string -> option (any_rel V)) a (items : items_t) : outcome (any_rel V) :=
  match a with
  | AClean D rel => let* rel := cleanup_data D rel items in Ok (AClean D rel)
  | ANoisy n => let* b := base_of lk n in let* n := noisy_cleanup_data n b items in Ok (ANoisy n)
  end.
(** clean_relation.hh:506, noisy_relation.hh:164 [get_data_r]. *)
Definition any_data_r a : gmap string (gmap Z (gset items_t)) :=
  match a with AClean D rel => r_data_r rel | ANoisy n => r_data_r (n_rel n) end.
(** clean_relation.hh:489-492, noisy_relation.hh:152-155 [get_value]. *)
Definition any_get_value a (items : items_t) : outcome V :=
  let* _ := assert_ (bool_decide (items ∈ dom (any_data a))) in at_ (any_data a !! items).
(** clean_relation.hh:203-219 with a null generator: the cluster has to exist. *)
Definition logp_from_items {W} (D : Dist W) (Wd : world) (rel : relation D) (items : items_t) (v : W) : outcome (option R) :=
  let* b := clusters_contains D Wd rel items in
  let* _ := assert_ b in
  let* z := get_cluster_assignment D Wd rel items in
  let* c := at_ (r_clusters rel !! z) in
  d_logp D c v.
(** clean_relation.hh:211-219, noisy_relation.hh:219-236 with a null generator; minus
    infinity when the base value is missing. *)
Definition any_logp_from_items (lk : string -> option (any_rel V)) (Wd : world) a (items : items_t) (v : V) : outcome (option R) :=
  match a with
  | AClean D rel => logp_from_items D Wd rel items v
  | ANoisy n =>
    let* b := base_of lk n in
    let* bi := get_base_items b items in
    match bv_data b !! bi with
    | None => Ok None
    | Some bv => logp_from_items (em_dist (n_em n)) Wd (n_rel n) items (bv, v)
    end
  end.

(** The IRM a relation lives in and the relation. *)
Definition h_find h (n : string) : outcome (world * any_rel V) :=
  let* ir := relation_to_irm h n in
  let* a := at_ (i_rels ir !! n) in
  Ok (i_domains ir, a).
(** A relation and the domains of its IRM replaced. *)
Definition h_put h (n : string) (W : world) a : outcome (hirm V) :=
  let* t := relation_to_table h n in
  let* ir := at_ (h_irms h !! t) in
  Ok (h_set_irms h (<[t := i_set_rel (i_set_domains ir W) n a]> (h_irms h))).

Definition store_put st (n : string) (items : items_t) (v : V) : store :=
  <[n := <[items := v]> (default ∅ (st !! n))]> st.

(** gendb.cc:378-388, :589-603: store an observation, take it out of its cluster, get its log
    probability there, and drop it. *)
Definition take_out h (n : string) (items : items_t) st : outcome (option R * hirm V * store) :=
  let* (W, a) := h_find h n in
  let* v := any_get_value a items in
  let st := store_put st n items v in
  let* a := any_unincorporate_from_cluster W a items in
  let* lp := any_logp_from_items (hirm_lookup h) W a items v in
  let* a := any_cleanup_data (hirm_lookup h) a items in
  let* h := h_put h n W a in
  Ok (lp, h, st).

(** gendb.cc:365-400 [unincorporate_reference_relation]; the recursion follows the chain of
    bases, [fuel] bounds its length. *)
Fixpoint drop_chain (fuel : nat) h (n : string) (items : items_t) (ind : nat) st : outcome (option R * hirm V * store) :=
  match fuel with
  | 0 => OutOfFuel
  | S fuel' =>
    let* (_, a) := h_find h n in
    if bool_decide (items ∉ dom (any_data a)) || bool_decide (length items <= ind) then Ok (Some 0%R, h, st)
    else
      let* (lp, h, st) := take_out h n items st in
      let* t := at_ (h_schema h !! n) in
      match t with
      | TClean _ _ _ _ => Ok (lp, h, st)
      | TNoisy _ _ _ _ base =>
        let* bi := base_items_of h n items in
        let* (lp', h, st) := drop_chain fuel' h base bi ind st in
        Ok (lw_add lp lp', h, st)
      end
  end.

(** gendb.cc:472-519 [unincorporate_from_domain_cluster_relation]; the links go to smaller
    positions. *)
Definition ancestors_of_link (rec : option R * hirm V * seats -> Z -> nat -> outcome (option R * hirm V * seats))
    (refs : gmap string (gmap (string * Z) Z)) (c : string) (e : Z) (m : gmap string nat)
    (s : option R * hirm V * seats) (f : string) : outcome (option R * hirm V * seats) :=
  let* j := at_ (m !! f) in
  let* mc := at_ (refs !! c) in
  let* x := at_ (mc !! (f, e)) in
  rec s x j.
Fixpoint leave_domain (fuel : nat) (o : orders) (refs : gmap string (gmap (string * Z) Z)) (lks : gmap string links)
    (n : string) (s : option R * hirm V * seats) (e : Z) (ind : nat) : outcome (option R * hirm V * seats) :=
  match fuel with
  | 0 => OutOfFuel
  | S fuel' =>
    let '(lp, h, un) := s in
    let* code := relation_to_table h n in
    let* ir := at_ (h_irms h !! code) in
    let* t := at_ (h_schema h !! n) in
    let* c := at_ (t_domains t !! ind) in
    let* dm := at_ (i_domains ir !! c) in
    if bool_decide ((code, c, e) ∈ dom un) then Ok s
    else
      let* b := irm_has_observation o ir c e in
      if b || bool_decide (e ∉ dom_items dm) then Ok s
      else
        let* cl := at_ (crp_assignments (dom_crp dm) !! e) in
        let* dm := dom_unincorporate dm e in
        let* l := if bool_decide (cl ∈ dom (crp_tables (dom_crp dm))) then crp_logp (dom_crp dm) cl
                  else Ok (Some (crp_logp_new_table (dom_crp dm))) in
        let h := h_set_irms h (<[code := i_set_domains ir (<[c := dm]> (i_domains ir))]> (h_irms h)) in
        let s := (lw_add lp l, h, <[(code, c, e) := cl]> un) in
        match lks !! n with
        | None => Ok s
        | Some r =>
          match r !! ind with
          | None => Ok s
          | Some m => foldM (ancestors_of_link (leave_domain fuel' o refs lks n) refs c e m) s (sorted_names m)
          end
        end
  end.

(** gendb.cc:312-363 [unincorporate_reference]. *)
Definition drop_item h0 (n : string) (ind : nat) (e : Z) (s : option R * hirm V * store) (items : items_t) : outcome (option R * hirm V * store) :=
  let '(lp, h, st) := s in
  let* x := idx_ (items !! ind) in
  if bool_decide (x = e) then
    let* (lp', h, st) := drop_chain (S (size (h_schema h0))) h n items ind st in Ok (lw_add lp lp', h, st)
  else Ok s.
Definition drop_relation (o : orders) (c : string) (e : Z) (s : option R * hirm V * store) (p : string * list nat)
  : outcome (option R * hirm V * store) :=
  let '(_, h, _) := s in
  let* (_, a) := h_find h p.1 in
  let* m := at_ (any_data_r a !! c) in
  match (m : gmap Z (gset items_t)) !! e with
  | None => Ok s
  | Some items => foldM (fun s ind => foldM (drop_item h p.1 ind e) s (o_vecs o items)) s p.2
  end.
Definition leave_relation (o : orders) (refs : gmap string (gmap (string * Z) Z)) (lks : gmap string links) (f : string) (x : Z)
    (s : option R * hirm V * seats) (p : string * list nat) : outcome (option R * hirm V * seats) :=
  foldM (fun s d_ind =>
    let* r := at_ (lks !! p.1) in
    let* m := at_ (r !! d_ind) in
    let* j := at_ (m !! f) in
    leave_domain (S j) o refs lks p.1 s x j) s p.2.
(** The entries of a [std::map] by name. *)
Definition sorted_entries {A} (m : gmap string A) : list (string * A) :=
  omap (fun n => (fun x => (n, x)) <$> m !! n) (sorted_names m).
Definition reference_value (refs : gmap string (gmap (string * Z) Z)) (c f : string) (i : Z) : outcome Z :=
  let* m := at_ (refs !! c) in at_ (m !! (f, i)).
Definition unincorporate_reference (o : orders) g (inds : gmap string (list nat)) (c f : string) (i : Z) st (un : seats)
  : outcome (option R * gendb V * store * seats) :=
  let* (lp, h, st) := foldM (drop_relation o c i) (Some 0%R, g_hirm g, st) (sorted_entries inds) in
  let* x := reference_value (en_refs (g_ents g)) c f i in
  let* (lp', h, un) := foldM (leave_relation o (en_refs (g_ents g)) (g_links g) f x) (Some 0%R, h, un) (sorted_entries inds) in
  Ok (lw_add lp lp', g_set g (g_ents g) h, st, un).

(** gendb.cc:407-433 [update_reference_items].  The temporary change of [reference_values]
    is undone before the end. *)
Definition set_reference (refs : gmap string (gmap (string * Z) Z)) (c f : string) (i x : Z) : outcome (gmap string (gmap (string * Z) Z)) :=
  let* m := at_ (refs !! c) in Ok (<[c := <[(f, i) := x]> m]> refs).
Definition update_item (o : orders) g (refs : gmap string (gmap (string * Z) Z)) (n : string) (data : gmap items_t V)
    (new : store) (items : items_t) : outcome store :=
  let* v := at_ (data !! items) in
  let* t := at_ (h_schema (g_hirm g) !! n) in
  let* k := idx_ (last items) in
  let* items' := items_for refs (t_domains t) (links_of g n) k in
  Ok (store_put new n items' v).
Definition update_reference_items (o : orders) g st (c f : string) (i x : Z) : outcome store :=
  let* _ := reference_value (en_refs (g_ents g)) c f i in
  let* refs := set_reference (en_refs (g_ents g)) c f i x in
  foldM (fun new p => foldM (update_item o g refs p.1 p.2) new (o_vecs o (dom p.2))) ∅ (sorted_entries st).

(** gendb.cc:450-470 [incorporate_reference_relation], :437-446 [incorporate_reference]. *)
Definition enter_item (n : string) (data : gmap items_t V) (s : hirm V * rng) (items : items_t) : outcome (hirm V * rng) :=
  let '(h, r) := s in
  let* v := at_ (data !! items) in
  let* (W, a) := h_find h n in
  if bool_decide (items ∈ dom (any_data a)) then Ok s
  else
    let* (W, a, r) := any_incorporate (hirm_lookup h) W a items v r in
    let* h := h_put h n W a in
    Ok (h, r).
Fixpoint enter_chain (fuel : nat) (o : orders) st (s : hirm V * rng) (n : string) : outcome (hirm V * rng) :=
  match fuel with
  | 0 => OutOfFuel
  | S fuel' =>
    let* t := at_ (h_schema s.1 !! n) in
    let* s := match t with
              | TClean _ _ _ _ => Ok s
              | TNoisy _ _ _ _ base => if bool_decide (base ∈ dom st) then enter_chain fuel' o st s base else Ok s
              end in
    let* data := at_ (st !! n) in
    foldM (enter_item n data) s (o_vecs o (dom data))
  end.
Definition incorporate_reference (o : orders) h st (r : rng) : outcome (hirm V * rng) :=
  foldM (enter_chain (S (size (h_schema h))) o st) (h, r) (sorted_names st).

(** gendb.cc:534-573 [unincorporate_from_entity_cluster]; [fuel] bounds the depth of the
    recursion over the class graph. *)
Definition leave_field (rec : option R * ents * freed -> string -> outcome (option R * ents * freed)) (cl : pclass)
    (s : option R * ents * freed) (name : string) : outcome (option R * ents * freed) :=
  match cl !! name with Some (PClassVar _) => rec s name | _ => Ok s end.
Fixpoint leave_entity (fuel : nat) (rid : hash_fn) (cs : gmap string pclass) (top : bool) (c : string) (i : Z)
    (s : option R * ents * freed) (f : string) : outcome (option R * ents * freed) :=
  match fuel with
  | 0 => OutOfFuel
  | S fuel' =>
    let '(lp, e, un) := s in
    let* x := reference_value (en_refs e) c f i in
    let* cl := at_ (cs !! c) in
    let* v := at_ (cl !! f) in
    match v with
    | PScalar _ _ => Throws
    | PClassVar k =>
      let* crp := at_ (en_crps e !! k) in
      let* (crp, un) := if top then Ok (crp, un)
                        else let* crp := crp_unincorporate crp (rid c f i) in Ok (crp, <[(c, f, i) := x]> un) in
      let e := Ents (en_refs e) (<[k := crp]> (en_crps e)) in
      if bool_decide (x ∈ dom (crp_tables crp)) then
        let* l := if top then Ok (Some 0%R) else crp_logp crp x in
        let* kl := at_ (cs !! k) in
        foldM (leave_field (leave_entity fuel' rid cs false k x) kl) (lw_add lp l, e, un) (sorted_names kl)
      else Ok (lw_add lp (if top then Some 0%R else Some (crp_logp_new_table crp)), e, un)
    end
  end.

(** gendb.cc:577-613 [unincorporate_reference_relation_singleton]. *)
Fixpoint drop_single (fuel : nat) (e : ents) h (n : string) (items : items_t) st : outcome (option R * hirm V * store) :=
  match fuel with
  | 0 => OutOfFuel
  | S fuel' =>
    let* t := at_ (h_schema h !! n) in
    let* (_, a) := h_find h n in
    if bool_decide (items ∉ dom (any_data a)) then Ok (Some 0%R, h, st)
    else
      let* c := idx_ (last (t_domains t)) in
      let* crp := at_ (en_crps e !! c) in
      let* k := idx_ (last items) in
      if bool_decide (k ∈ dom (crp_tables crp)) then Ok (Some 0%R, h, st)
      else
        let* (lp, h, st) := take_out h n items st in
        match t with
        | TClean _ _ _ _ => Ok (lp, h, st)
        | TNoisy _ _ _ _ base =>
          let* bi := base_items_of h n items in
          let* (lp', h, st) := drop_single fuel' e h base bi st in
          Ok (lw_add lp lp', h, st)
        end
  end.

(** gendb.cc:619-657 [unincorporate_singleton]. *)
Definition class_items g (e : ents) h (n : string) (x : Z) : outcome items_t :=
  let* t := at_ (h_schema h !! n) in
  items_for (en_refs e) (t_domains t) (links_of g n) x.
Definition single_drop g (e : ents) (x : Z) (s : option R * hirm V * store) (n : string) : outcome (option R * hirm V * store) :=
  let '(lp, h, st) := s in
  let* items := class_items g e h n x in
  let* (lp', h, st) := drop_single (S (size (h_schema h))) e h n items st in
  Ok (lw_add lp lp', h, st).
Definition single_leave (o : orders) g (e : ents) (x : Z) (s : option R * hirm V * seats) (n : string) : outcome (option R * hirm V * seats) :=
  let '(_, h, _) := s in
  let* items := class_items g e h n x in
  let* k := idx_ (last items) in
  leave_domain (length items) o (en_refs e) (g_links g) n s k (pred (length items)).
Definition unincorporate_singleton (rid : hash_fn) (o : orders) g (c f : string) (i : Z) (rc : string) st (un : seats) (ue : freed)
  : outcome (option R * gendb V * store * seats * freed) :=
  let* x := reference_value (en_refs (g_ents g)) c f i in
  let* (lp1, e, ue) := leave_entity (S (g_fuel g)) rid (ps_classes (g_schema g)) true c i (Some 0%R, g_ents g, ue) f in
  let* ns := at_ (g_rels g !! rc) in
  let* (lp2, h, st) := foldM (single_drop g e x) (Some 0%R, g_hirm g, st) ns in
  let* (lp3, h, un) := foldM (single_leave o g e x) (Some 0%R, h, un) ns in
  Ok (lw_add lp1 (lw_add lp2 lp3), g_set g e h, st, un, ue).

(** gendb.cc:813-866 [reincorporate_new_refval].  [r] is the local, default-seeded generator. *)
Definition enter_seat (un : seats) (s : hirm V * rng) (k : Z * string * Z) : outcome (hirm V * rng) :=
  let '(h, r) := s in
  let '(code, c, e) := k in
  let* cl := at_ (un !! k) in
  let* ir := at_ (h_irms h !! code) in
  let* dm := at_ (i_domains ir !! c) in
  if bool_decide (e ∈ dom_items dm) then Ok s
  else
    let* (dm, r) := dom_incorporate dm e cl r in
    Ok (h_set_irms h (<[code := i_set_domains ir (<[c := dm]> (i_domains ir))]> (h_irms h)), r).
Definition reenter_reference (rid : hash_fn) (cs : gmap string pclass) (ue : freed) (e : ents) (k : string * string * Z) : outcome ents :=
  let '(c, f, i) := k in
  let* x := at_ (ue !! k) in
  let* cl := at_ (cs !! c) in
  let* v := at_ (cl !! f) in
  match v with
  | PScalar _ _ => Throws
  | PClassVar kc =>
    let* crp := at_ (en_crps e !! kc) in
    let* crp := crp_incorporate crp (rid c f i) x in
    Ok (Ents (en_refs e) (<[kc := crp]> (en_crps e)))
  end.
Definition erase_reference (e : ents) (k : string * string * Z) : outcome ents :=
  let '(c, f, i) := k in
  let* m := at_ (en_refs e !! c) in
  Ok (Ents (<[c := delete (f, i) m]> (en_refs e)) (en_crps e)).
Definition reincorporate_new_refval (rid : hash_fn) (o : orders) (to : torders) g (c f : string) (i x : Z) (rc : string) st (un : seats) (ue : freed)
    (r : rng) : outcome (gendb V) :=
  let* (h, r) := foldM (enter_seat un) (g_hirm g, r) (to_seats to (dom un)) in
  let* _ := reference_value (en_refs (g_ents g)) c f i in
  let* refs := set_reference (en_refs (g_ents g)) c f i x in
  let e := Ents refs (en_crps (g_ents g)) in
  let* crp := at_ (en_crps e !! rc) in
  let* e := if bool_decide (x ∉ dom (crp_tables crp))
            then foldM (reenter_reference rid (ps_classes (g_schema g)) ue) e (to_freed to (dom ue))
            else foldM erase_reference e (to_freed to (dom ue)) in
  let* crp := at_ (en_crps e !! rc) in
  let* crp := crp_incorporate crp (rid c f i) x in
  let e := Ents (en_refs e) (<[rc := crp]> (en_crps e)) in
  let* (h, _) := incorporate_reference o h st r in
  let* h := hirm_cleanup h in
  Ok (g_set g e h).

(** gendb.cc:738-757: the row of a new entity. *)
Definition new_row_step g (e : ents) (x : Z) (s : hirm V * rng) (n : string) : outcome (hirm V * rng) :=
  let '(h, r) := s in
  let* items := class_items g e h n x in
  let* a := get_relation h n in
  if bool_decide (items ∈ dom (any_data a)) then Ok s
  else let* (_, h, r) := hirm_sample_relation (S (size (h_schema h))) h n items r in Ok (h, r).
Definition new_row (rid : hash_fn) g (rc : string) (x : Z) (r : rng) : outcome (gendb V * rng) :=
  let* (_, e, r) := class_ancestors (g_fuel g) rid (ps_classes (g_schema g)) (g_ents g) rc x r in
  let* ns := at_ (g_rels g !! rc) in
  let* (h, r) := foldM (new_row_step g e x) (g_hirm g, r) ns in
  Ok (g_set g e h, r).

(** The local variables of [transition_reference] that the loop over the candidates changes. *)
Record moving := Moving {
  mv_g : gendb V;
  mv_seats : gmap Z seats;      (* unincorporated_from_domains *)
  mv_row : store;               (* ref_class_relation_stored_values *)
  mv_freed : freed;             (* unincorporated_from_entity_crps *)
  mv_logps : list (option R);
  mv_rng : rng;
}.
(** gendb.cc:724-784: one candidate. *)
Definition try_entity (rid : hash_fn) (o : orders) (inds : gmap string (list nat)) (c f : string) (i : Z) (rc : string)
    (init single : Z) (stored : store) (lp0 : option R) (dist : gmap Z R) (m : moving) (x : Z) : outcome moving :=
  let* w := at_ (dist !! x) in
  let* _ := reference_value (en_refs (g_ents (mv_g m))) c f i in
  let* refs := set_reference (en_refs (g_ents (mv_g m))) c f i x in
  let g := g_set (mv_g m) (Ents refs (en_crps (g_ents (mv_g m)))) (g_hirm (mv_g m)) in
  if bool_decide (x = init) then
    Ok (Moving g (mv_seats m) (mv_row m) (mv_freed m) (mv_logps m ++ [lw_add (Some (ln w)) lp0]) (mv_rng m))
  else
    let* (g, r) := if bool_decide (x = single) then new_row rid g rc x (mv_rng m) else Ok (g, mv_rng m) in
    let* upd := update_reference_items o g stored c f i x in
    let* (h, r) := incorporate_reference o (g_hirm g) upd r in
    let g := g_set g (g_ents g) h in
    let* (lp, g, _, un) := unincorporate_reference o g inds c f i upd (default ∅ (mv_seats m !! x)) in
    if bool_decide (x = single) then
      let* (lp', g, row, un, ue) := unincorporate_singleton rid o g c f i rc (mv_row m) un (mv_freed m) in
      Ok (Moving g (<[x := un]> (mv_seats m)) row ue (mv_logps m ++ [lw_add (Some (ln w)) (lw_add lp lp')]) r)
    else Ok (Moving g (<[x := un]> (mv_seats m)) (mv_row m) (mv_freed m) (mv_logps m ++ [lw_add (Some (ln w)) lp]) r).

(** util_math.cc:101-110 [sample_from_logps] with zero weights: one of the entries of positive
    weight is drawn; when there is none the weights are NaN, which [std::discrete_distribution]
    does not allow. *)
Definition positive_entries (lps : list (option R)) : list nat :=
  filter (fun k => is_Some (mjoin (lps !! k))) (seq 0 (length lps)).
Definition sample_some (lps : list (option R)) (r : rng) : outcome (nat * rng) :=
  match positive_entries lps with
  | [] => UB
  | l => let '(k, r) := choose_index (length l) r in let* k := idx_ (l !! k) in Ok (k, r)
  end.

(** gendb.cc:686-691: the entity that stands for the new table. *)
Definition single_entity (crp : crp) (dist : gmap Z R) (init : Z) : Z :=
  foldl (fun s t => if bool_decide (t ∈ dom (crp_tables crp)) then s else t) init (sorted_keys dist).

(** gendb.cc:660-811 [transition_reference] once the candidates are known (from :675). *)
Definition transition_among (rid : hash_fn) (o : orders) (to : torders) g (c f : string) (i : Z) (rc : string) (init : Z) (dist : gmap Z R)
    (r r2 : rng) : outcome (gendb V * rng) :=
  let* inds := domain_inds g c f in
  let* (lp0, g, stored, un) := unincorporate_reference o g inds c f i ∅ ∅ in
  let* crp := at_ (en_crps (g_ents g) !! rc) in
  let single := single_entity crp dist init in
  let* crp := crp_unincorporate crp (rid c f i) in
  let g := g_set g (Ents (en_refs (g_ents g)) (<[rc := crp]> (en_crps (g_ents g)))) (g_hirm g) in
  let* (lp0, g, row, un, ue) :=
    if bool_decide (single = init) then
      let* (lp', g, row, un, ue) := unincorporate_singleton rid o g c f i rc ∅ un ∅ in
      Ok (lw_add lp0 lp', g, row, un, ue)
    else Ok (lp0, g, ∅, un, ∅) in
  let* m := foldM (try_entity rid o inds c f i rc init single stored lp0 dist)
              (Moving g {[init := un]} row ue [] r) (sorted_keys dist) in
  let* (k, r) := sample_some (mv_logps m) (mv_rng m) in
  let* x := at_ (sorted_keys dist !! k) in
  let* upd := update_reference_items o (mv_g m) stored c f i x in
  let upd := if bool_decide (single = x) then upd ∪ mv_row m else upd in
  let* un := at_ (mv_seats m !! x) in
  let* g := reincorporate_new_refval rid o to (mv_g m) c f i x rc upd un (mv_freed m) r2 in
  Ok (g, r).
(** gendb.cc:660-811 [transition_reference]; [r2] is the generator of
    [reincorporate_new_refval]. *)
Definition transition_reference (rid : hash_fn) (o : orders) (to : torders) g (c f : string) (i : Z) (r r2 : rng) : outcome (gendb V * rng) :=
  let* cl := at_ (ps_classes (g_schema g) !! c) in
  let* v := at_ (cl !! f) in
  match v with
  | PScalar _ _ => Throws
  | PClassVar rc =>
    let* init := reference_value (en_refs (g_ents g)) c f i in
    let* crp := at_ (en_crps (g_ents g) !! rc) in
    let* dist := crp_tables_weights_gibbs crp init in
    if bool_decide (size dist = 1) then Ok (g, r)
    else transition_among rid o to g c f i rc init dist r r2
  end.

(** gendb.cc:868-883 [transition_reference_class_and_ancestors].  The references of a class are
    visited as they are when the loop starts: the calls change references of that class, but
    add or remove only references of other classes. *)
Definition class_and_ancestors_step (rec : gendb V * rng -> string -> outcome (gendb V * rng)) (cl : pclass) (s : gendb V * rng) (v : string)
  : outcome (gendb V * rng) :=
  match cl !! v with Some (PClassVar k) => rec s k | _ => Ok s end.
Fixpoint transition_class (fuel : nat) (rid : hash_fn) (o : orders) (to : torders) (r2 : rng) (s : gendb V * rng) (c : string)
  : outcome (gendb V * rng) :=
  match fuel with
  | 0 => OutOfFuel
  | S fuel' =>
    let* cl := at_ (ps_classes (g_schema s.1) !! c) in
    let* s := foldM (class_and_ancestors_step (transition_class fuel' rid o to r2) cl) s (sorted_names cl) in
    let* m := at_ (en_refs (g_ents s.1) !! c) in
    foldM (fun s k => transition_reference rid o to s.1 c k.1 k.2 s.2 r2) s (to_refs to (dom m))
  end.

(** inference.cc:73-90 [inference_gendb]: [n] outer iterations from iteration [k] on, each of
    [m] iterations on the HIRM ([late] as in [inference_hirm]) and one pass over the
    references; [stop k] says whether the time-out has passed at the end of iteration [k]. *)
Fixpoint inference_gendb (lg : R -> R) (rid : hash_fn) (o : nat -> orders) (to : torders) (late : nat -> nat -> bool) (stop : nat -> bool)
    (k n m : nat) g (r r2 : rng) : outcome (gendb V * rng) :=
  match n with
  | 0 => Ok (g, r)
  | S n' =>
    let* (h, r) := inference_hirm lg o (late k) 0 m (g_hirm g) r in
    let* (g, r) := transition_class (S (g_fuel g)) rid (o k) to r2 (g_set g (g_ents g) h, r) (pq_record (ps_query (g_schema g))) in
    if stop k then Ok (g, r) else inference_gendb lg rid o to late stop (S k) n' m g r r2
  end.
End Trans.
