(** Observation files, entity encodings and the loading of observations into a model:
    util_io.cc:176-434 and :716-748. *)
From Coq Require Import String Ascii.
From stdpp Require Import gmap sorting strings list.
From Coq Require Import ZArith Reals.
From Verif Require Import M_base M_dist M_crp M_domain M_relation M_noisy M_irm M_hirm M_text.
Local Open Scope nat_scope.

(** observations.hh:14-19: per relation, the entity names and the value of each
    observation, all as text. *)
Notation observation := (list string * string)%type.
Notation observations := (gmap string (list (list string * string))).
(** observations.hh:21-27: the same with entities replaced by codes. *)
Notation encoded := (gmap string (list (items_t * string))).

(** Printing an [int] with [operator<<]. *)
Definition digit (n : N) : ascii := ascii_of_N (48 + n).
Fixpoint dec (fuel : nat) (n : N) (acc : text) : text :=
  let acc' := digit (n mod 10) :: acc in
  match fuel with
  | 0 => acc'
  | S f => if (n / 10 =? 0)%N then acc' else dec f (n / 10)%N acc'
  end.
Definition print_int (z : Z) : text :=
  if (z <? 0)%Z then "-"%char :: dec (N.size_nat (Z.to_N (- z))) (Z.to_N (- z)) []
  else dec (N.size_nat (Z.to_N z)) (Z.to_N z) [].

(** [m[k].push_back(x)]. *)
Definition push {A} (m : gmap string (list A)) (k : string) (x : A) : gmap string (list A) :=
  <[k := default [] (m !! k) ++ [x]]> m.

(** * Observation files *)

Definition comma : ascii := ","%char.

(** util_io.cc:184-206: one line.  [std::exit(1)] when the relation is not declared. *)
Definition obs_line (schema : gset string) (obs : observations) (line : text) : outcome observations :=
  match getlines comma line with
  | [] | [_] => AssertFail
  | v :: rel :: items =>
    if bool_decide (str rel ∈ schema) then
      let* _ := assert_ (bool_decide (items <> [])) in
      Ok (push obs (str rel) (map str items, str v))
    else Exits
  end.
(** util_io.cc:176-217 [load_observations].  The relations marked as observed are exactly
    those with an entry in the result, so the flag is not modelled apart. *)
Definition load_observations (schema : gset string) (file : text) : outcome observations :=
  foldM (obs_line schema) ∅ (getlines newline file).

(** util_io.cc:233-242: one entity. *)
Definition write_entity (rev : gmap string (gmap Z string)) (d : string) (e : Z) : outcome text :=
  let* m := at_ (rev !! d) in
  Ok (match m !! e with
      | None => txt "new_" ++ txt d ++ txt "_" ++ print_int e
      | Some n => txt n
      end).
Fixpoint write_entities (rev : gmap string (gmap Z string)) (ds : list string) (es : items_t) : outcome text :=
  match es with
  | [] => Ok []
  | e :: es' =>
    let* d := idx_ (head ds) in
    let* t := write_entity rev d e in
    let* t' := write_entities rev (tail ds) es' in
    Ok (comma :: t ++ t')
  end.
(** util_io.cc:219-246 [write_observations]; [domains_of] is [m->schema.at(rel).domains]. *)
Definition write_one (rev : gmap string (gmap Z string)) (rel : string) (ds : list string)
    (out : text) (x : items_t * string) : outcome text :=
  let* t := write_entities rev ds x.1 in
  Ok (out ++ txt x.2 ++ [comma] ++ txt rel ++ t ++ [newline]).
Definition write_relation (rev : gmap string (gmap Z string)) (domains_of : string -> option (list string))
    (obs : encoded) (out : text) (rel : string) : outcome text :=
  let* ds := at_ (domains_of rel) in
  foldM (write_one rev rel ds) out (default [] (obs !! rel)).
Definition write_observations (o : orders) (rev : gmap string (gmap Z string))
    (domains_of : string -> option (list string)) (obs : encoded) : outcome text :=
  foldM (write_relation rev domains_of obs) [] (o_names o (dom obs)).

(** util_io.cc:716-727 [merge_observations]. *)
Definition merge_observations (obs1 obs2 : observations) : observations :=
  union_with (fun a b => Some (a ++ b)) obs1 obs2.

(** * Entity encodings *)

(** util_io.hh:9-11. *)
Record encoding := Enc { enc_f : gmap string (gmap string Z); enc_r : gmap string (gmap Z string) }.
(** util_io.cc:262-264: the counters and the two maps under construction. *)
Record enc_state := EncState { es_count : gmap string Z; es_f : gmap string (gmap string Z); es_r : gmap string (gmap Z string) }.

(** util_io.cc:266-273. *)
Definition enc_domain (st : enc_state) (d : string) : enc_state :=
  EncState (<[d := 0%Z]> (es_count st)) (<[d := ∅]> (es_f st)) (<[d := ∅]> (es_r st)).
Definition enc_init (schema : gmap string (list string)) : enc_state :=
  foldl (fun st rel => foldl enc_domain st (default [] (schema !! rel))) (EncState ∅ ∅ ∅) (sorted_names schema).

(** util_io.cc:284-291: give the entity the next code of its domain unless it has one. *)
Definition enc_item (st : enc_state) (d item : string) : outcome enc_state :=
  let* f := at_ (es_f st !! d) in
  if bool_decide (item ∈ dom f) then Ok st
  else
    let code := default 0%Z (es_count st !! d) in
    Ok (EncState (<[d := (code + 1)%Z]> (es_count st)) (<[d := <[item := code]> f]> (es_f st))
      (<[d := <[code := item]> (default ∅ (es_r st !! d))]> (es_r st))).
(** util_io.cc:281-293: [domains.at(counter)] throws when there are more entities than domains. *)
Fixpoint enc_items (st : enc_state) (ds : list string) (items : list string) : outcome enc_state :=
  match items with
  | [] => Ok st
  | item :: items' =>
    let* d := at_ (head ds) in
    let* st := enc_item st d item in
    enc_items st (tail ds) items'
  end.
(** util_io.cc:275-295; [schema.at(relation)] is only evaluated for an actual observation. *)
Definition enc_relation (schema : gmap string (list string)) (obs : observations) (st : enc_state) (rel : string)
  : outcome enc_state :=
  foldM (fun st (x : observation) =>
    let* ds := at_ (schema !! rel) in
    enc_items st ds x.1) st (default [] (obs !! rel)).
(** util_io.cc:259-297 [calculate_encoding]. *)
Definition calculate_encoding (o : orders) (schema : gmap string (list string)) (obs : observations) : outcome encoding :=
  let* st := foldM (enc_relation schema obs) (enc_init schema) (o_names o (dom obs)) in
  Ok (Enc (es_f st) (es_r st)).

(** util_io.cc:311-315. *)
Fixpoint encode_items (f : gmap string (gmap string Z)) (ds : list string) (items : list string) : outcome items_t :=
  match items with
  | [] => Ok []
  | item :: items' =>
    let* d := idx_ (head ds) in
    let* m := at_ (f !! d) in
    let* c := at_ (m !! item) in
    let* cs := encode_items f (tail ds) items' in
    Ok (c :: cs)
  end.
(** util_io.cc:305-317: one relation. *)
Definition encode_relation (f : gmap string (gmap string Z)) (domains_of : string -> option (list string))
    (obs : observations) (acc : encoded) (rel : string) : outcome encoded :=
  let* ds := at_ (domains_of rel) in
  foldM (fun acc (x : observation) =>
    let* es := encode_items f ds x.1 in
    Ok (push acc rel (es, x.2))) acc (default [] (obs !! rel)).
(** util_io.cc:299-321 [encode_observations]; [domains_of] is [m->schema.at(rel).domains]. *)
Definition encode_observations (o : orders) (f : gmap string (gmap string Z)) (domains_of : string -> option (list string))
    (obs : observations) : outcome encoded :=
  foldM (encode_relation f domains_of obs) ∅ (o_names o (dom obs)).

(** * Loading observations into a model *)

Section Model.
Context {M V : Type}.

(** What [incorporate_observations] uses of the [IRM*] or [HIRM*] it is given. *)
Record model_ops := ModelOps {
  op_domains : M -> string -> option (list string);       (* m->schema.at(rel).domains *)
  op_b2n : M -> gmap string (list string);                (* m->base_to_noisy_relations *)
  op_get : M -> string -> outcome (any_rel V);            (* m->get_relation(rel) *)
  op_lookup : M -> string -> option (any_rel V);          (* following base pointers *)
  op_incorporate : M -> string -> items_t -> V -> rng -> outcome (M * rng);
  op_sample_at : M -> string -> items_t -> rng -> outcome (V * M * rng);  (* rel->sample_at_items *)
}.
Context (X : model_ops).

(** [rel->from_string(value)]: reading a value of the relation, by relation name. *)
Context (parse : string -> string -> outcome V).

Notation items_map := (gmap string (gset items_t)).
(** [m[k].insert(x)]. *)
Definition add_items (ri : items_map) (name : string) (items : items_t) : items_map :=
  <[name := {[items]} ∪ default ∅ (ri !! name)]> ri.

(** util_io.cc:346-350: the base items of one noisy tuple. *)
Definition note_base_items (m : M) (a : any_rel V) (base : string) (ri : items_map) (items : items_t) : outcome items_map :=
  let* n := as_noisy a in
  let* b := base_of (op_lookup X m) n in
  let* bi := get_base_items b items in
  Ok (add_items ri base bi).
(** util_io.cc:359-365. *)
Definition incorporate_observed (name : string) (st : M * rng) (x : items_t * string) : outcome (M * rng) :=
  let '(m, r) := st in
  let* v := parse name x.2 in
  op_incorporate X m name x.1 v r.
(** util_io.cc:370-386; the value is sampled even when it is not needed. *)
Definition incorporate_sampled (name : string) (st : M * rng) (items : items_t) : outcome (M * rng) :=
  let '(m, r) := st in
  let* (v, m, r) := op_sample_at X m name items r in
  let* a := op_get X m name in
  if bool_decide (items ∈ dom (any_data a)) then Ok (m, r) else op_incorporate X m name items v r.

(** util_io.cc:323-389 [incorporate_observations_relation].  The recursion follows the chain
    of bases; [fuel] bounds its length.  The state is the model, relation_items,
    completed_relations and the generator. *)
Fixpoint incorporate_relation (fuel : nat) (o : orders) (obs : encoded) (n2b : gmap string string) (name : string)
    (st : M * items_map * gset string * rng) : outcome (M * items_map * gset string * rng) :=
  match fuel with
  | 0 => OutOfFuel
  | S fuel' =>
    let '(m, ri, completed, r) := st in
    let* a := op_get X m name in
    let* (m, ri, completed, r) := match n2b !! name with
      | None => Ok (m, ri, completed, r)
      | Some base =>
        let* ri := if bool_decide (base ∈ dom obs) then Ok ri
          else
            let* s := at_ (ri !! name) in
            foldM (note_base_items m a base) ri (o_vecs o s) in
        incorporate_relation fuel' o obs n2b base (m, ri, completed, r)
      end in
    let* (m, r) := match obs !! name with
      | Some l => foldM (incorporate_observed name) (m, r) l
      | None =>
        let* s := at_ (ri !! name) in
        foldM (incorporate_sampled name) (m, r) (o_vecs o s)
      end in
    Ok (m, ri, {[name]} ∪ completed, r)
  end.

(** util_io.cc:404-418: invert the map from bases to noisy relations. *)
Definition add_noisy {A} (b2n : gmap string (list string)) (obs : gmap string A) (base : string)
    (acc : gmap string string) (noisy : string) : outcome (gmap string string) :=
  if bool_decide (noisy ∈ dom b2n) || bool_decide (noisy ∈ dom obs) then Ok (<[noisy := base]> acc) else Exits.
Definition add_base {A} (b2n : gmap string (list string)) (obs : gmap string A) (acc : gmap string string) (base : string)
  : outcome (gmap string string) :=
  foldM (add_noisy b2n obs base) acc (default [] (b2n !! base)).
Definition noisy_to_base {A} (o : orders) (b2n : gmap string (list string)) (obs : gmap string A) : outcome (gmap string string) :=
  foldM (add_base b2n obs) ∅ (o_names o (dom b2n)).

(** util_io.cc:420-426. *)
Definition relation_items (obs : encoded) : items_map := list_to_set <$> (map fst <$> obs).

(** util_io.cc:428-436. *)
Definition incorporate_next (fuel : nat) (o : orders) (obs : encoded) (n2b : gmap string string)
    (st : M * items_map * gset string * rng) (name : string) : outcome (M * items_map * gset string * rng) :=
  let '(m, ri, completed, r) := st in
  if bool_decide (name ∈ completed) then Ok st else incorporate_relation fuel o obs n2b name st.
Definition incorporate_encoded (o : orders) (m : M) (obs : encoded) (r : rng) : outcome (M * rng) :=
  let* n2b := noisy_to_base o (op_b2n X m) obs in
  let* (m, _, _, r) := foldM (incorporate_next (S (size n2b)) o obs n2b) (m, relation_items obs, ∅, r) (o_names o (dom obs)) in
  Ok (m, r).
(** util_io.cc:391-434 [incorporate_observations]. *)
Definition incorporate_observations (o : orders) (m : M) (enc : encoding) (obs : observations) (r : rng) : outcome (M * rng) :=
  let* eobs := encode_observations o (enc_f enc) (op_domains X m) obs in
  incorporate_encoded o m eobs r.
End Model.
Arguments model_ops : clear implicits.

Section Instances.
Context {V : Type}.

(** clean_relation.hh:229-238, noisy_relation.hh:237-251 on either kind of relation. *)
Definition any_sample_at_items (lk : string -> option (any_rel V)) (W : world) (a : any_rel V) (items : items_t) (r : rng)
  : outcome (V * any_rel V * rng) :=
  match a with
  | AClean D rel => let* (v, rel', r') := sample_at_items D W rel items r in Ok (v, AClean D rel', r')
  | ANoisy n =>
    let* b := base_of lk n in
    let* (v, r') := noisy_sample_at_items W n b items r in Ok (v, a, r')
  end.

(** The IRM alternative of the variant. *)
Definition irm_sample_at (ir : irm V) (name : string) (items : items_t) (r : rng) : outcome (V * irm V * rng) :=
  let* a := at_ (i_rels ir !! name) in
  let* (v, a', r') := any_sample_at_items (irm_lookup ir) (i_domains ir) a items r in
  Ok (v, i_set_rel ir name a', r').
Definition irm_ops : model_ops (irm V) V := ModelOps
  (fun ir rel => t_domains <$> i_schema ir !! rel) i_b2n (fun ir rel => at_ (i_rels ir !! rel)) irm_lookup
  (fun ir => irm_incorporate (irm_lookup ir) ir) irm_sample_at.

(** The HIRM alternative of the variant. *)
Definition hirm_sample_at (h : hirm V) (name : string) (items : items_t) (r : rng) : outcome (V * hirm V * rng) :=
  let* t := relation_to_table h name in
  let* ir := at_ (h_irms h !! t) in
  let* a := at_ (i_rels ir !! name) in
  let* (v, a', r') := any_sample_at_items (hirm_lookup h) (i_domains ir) a items r in
  Ok (v, h_set_irms h (<[t := i_set_rel ir name a']> (h_irms h)), r').
Definition hirm_ops : model_ops (hirm V) V := ModelOps
  (fun h rel => t_domains <$> h_schema h !! rel) h_b2n get_relation hirm_lookup hirm_incorporate hirm_sample_at.
End Instances.
