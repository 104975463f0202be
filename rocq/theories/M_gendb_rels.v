(** GenDB: translation of a PClean schema into an HIRM schema, gendb.cc:970-1100, and
    pclean/get_joint_relations.cc. *)
From Coq Require Import String Ascii.
From stdpp Require Import gmap strings list sorting.
From Verif Require Import M_base M_irm M_text M_parse M_schema M_pclean_io M_gendb.
Local Open Scope string_scope.

(** pclean/get_joint_relations.cc:10-25 [JOINT_NAME_TO_PARTS]: the distribution and the
    emission of a joint name. *)
Definition joint_parts (j : string) : option (string * string) :=
  if bool_decide (j = "bool") then Some ("bernoulli", "sometimes_bitflip")
  else if bool_decide (j = "categorical") then Some ("categorical", "sometimes_categorical")
  else if bool_decide (j = "real") then Some ("normal", "sometimes_gaussian")
  else if bool_decide (j = "string") then Some ("bigram", "bigram")
  else if bool_decide (j = "stringcat") then Some ("stringcat", "bigram")
  else if bool_decide (j = "typo_int") then Some ("string_skellam", "bigram")
  else if bool_decide (j = "typo_nat") then Some ("string_nat", "bigram")
  else if bool_decide (j = "typo_real") then Some ("string_normal", "bigram")
  else None.

(** T_clean_relation or T_noisy_relation with its [is_observed]. *)
Notation hdecl := (bool * decl)%type.

(** get_joint_relations.cc:27-42 [get_distribution_relation]. *)
Definition distribution_relation (joint : string) (params : gmap string string) (ds : list string) : outcome hdecl :=
  match joint_parts joint with
  | None => Exits
  | Some (d, _) => let* sp := dist_spec_new (txt d) params in Ok (false, Clean ds sp)
  end.
(** get_joint_relations.cc:44-61 [get_emission_relation]; [is_observed] is set by the caller. *)
Definition emission_relation (joint : string) (params : gmap string string) (ds : list string) (base : string)
    (observed : bool) : outcome hdecl :=
  match joint_parts joint with
  | None => Exits
  | Some (_, e) => let* sp := emis_spec_new (txt e) params in Ok (observed, NoisyOf ds sp base)
  end.

(** The HIRM schema and [relation_reference_indices] (gendb.hh:256-257). *)
Record made := Made { md_rels : gmap string hdecl; md_refs : gmap string links }.

(** gendb.cc:1080: the name of the relation of an attribute. *)
Definition attr_name (c v : string) : string := c +:+ ":" +:+ v.

(** gendb.cc:1076-1089: a clean relation for every scalar variable of every class. *)
Definition attr_step (dm : gmap string (list string)) (refs : gmap string links) (c : string) (cl : pclass)
    (m : made) (v : string) : outcome made :=
  match cl !! v with
  | Some (PScalar joint params) =>
    let* d := distribution_relation joint params (default [] (dm !! c)) in
    Ok (Made (<[attr_name c v := d]> (md_rels m))
          (match refs !! c with Some r => <[attr_name c v := r]> (md_refs m) | None => md_refs m end))
  | _ => Ok m
  end.
Definition class_step (cs : gmap string pclass) (dm : gmap string (list string)) (refs : gmap string links)
    (m : made) (c : string) : outcome made :=
  let cl := default ∅ (cs !! c) in
  foldM (attr_step dm refs c cl) m (sorted_names cl).

(** gendb.cc:973-989: the classes and variables along a class path: the classes after the
    first, the variables but the last, and the last variable.  [vars[name]] of a missing
    variable is a default-constructed one, with an empty name and a [ScalarVar] (:980);
    [std::get<ClassVar>] throws for it; [pop_back] on no variables is undefined (:989). *)
Fixpoint walk_path (cs : gmap string pclass) (cl : pclass) (path : list string)
  : outcome (list string * list string * (string * pvar)) :=
  match path with
  | [] => UB
  | [v] => Ok ([], [], match cl !! v with Some x => (v, x) | None => ("", PScalar "" ∅) end)
  | v :: path' =>
    match cl !! v with
    | Some (PClassVar k) =>
      let* cl' := at_ (cs !! k) in
      let* (ks, vs, x) := walk_path cs cl' path' in
      Ok (k :: ks, v :: vs, x)
    | _ => Throws
    end
  end.

(** [std::get<ScalarVar>]. *)
Definition as_scalar (x : pvar) : outcome (string * gmap string string) :=
  match x with PScalar joint params => Ok (joint, params) | PClassVar _ => Throws end.

(** The classes of the path but the last, with the variables leaving them, from the last to
    the first, numbered as in the code. *)
Definition levels (cls vars : list string) : list (nat * (string * string)) :=
  reverse (zip (seq 0 (length vars)) (zip cls vars)).

(** gendb.cc:1022-1026: [relation_reference_indices[f][size - 1][var] = size - 2] for the
    domains extended by one class. *)
Definition put_link (i : nat) (v : string) (j : nat) (r : links) : links :=
  <[i := <[v := j]> (default ∅ (r !! i))]> r.
Definition final_step (st : list string * links) (lv : nat * (string * string)) : list string * links :=
  let '(ds, r) := st in
  let '(_, (c, v)) := lv in
  let ds := (ds ++ [c])%list in
  (ds, put_link (length ds - 1) v (length ds - 2) r).

Record chain_state := ChainState {
  cn_made : made;
  cn_prev : string;          (* :1041 previous_relation *)
  cn_domains : list string;  (* :1042 current_domains *)
  cn_refs : links;           (* :1043 ref_indices *)
}.
(** gendb.cc:1044-1070: one emission of a chain.  [std::map::merge] moves the entries with
    new keys and leaves the others (:1068). *)
Definition chain_step (f joint : string) (params : gmap string string) (st : chain_state) (lv : nat * (string * string))
  : outcome chain_state :=
  let '(i, (c, v)) := lv in
  let m := cn_made st in
  let ds := (cn_domains st ++ [c])%list in
  let r := put_link (length ds - 1) v (length ds - 2) (cn_refs st) in
  let* d := emission_relation joint params ds (cn_prev st) (bool_decide (i = 0)) in
  let name := if bool_decide (i = 0) then f else c +:+ "::" +:+ f in
  let dest := default ∅ (match md_refs m !! cn_prev st with Some r' => Some r' | None => md_refs m !! name end) in
  Ok (ChainState (Made (<[name := d]> (md_rels m)) (<[name := dest ∪ r]> (md_refs m))) name ds
        (filter (fun kv => kv.1 ∈ dom dest) r)).

(** gendb.cc:970-1071 [make_relations_for_queryfield]. *)
Definition queryfield_step (only_final record_is_clean : bool) (cs : gmap string pclass)
    (dm : gmap string (list string)) (refs : gmap string links) (rec : string) (rcl : pclass)
    (m : made) (fp : string * list string) : outcome made :=
  let '(f, path) := fp in
  let* (ks, vars, x) := walk_path cs rcl path in
  let cls := rec :: ks in
  let lastc := default rec (last ks) in
  let base := attr_name lastc x.1 in
  if bool_decide (length path = 1) then
    if record_is_clean then
      let* d := at_ (md_rels m !! base) in                                   (* :999 *)
      match d with
      | (_, Clean ds sp) => Ok (Made (delete base (<[f := (true, Clean ds sp)]> (md_rels m))) (md_refs m))
      | _ => Throws
      end
    else
      let* (joint, params) := as_scalar x.2 in
      let* d := emission_relation joint params (default [] (dm !! rec)) base true in
      Ok (Made (<[f := d]> (md_rels m)) (match refs !! rec with Some r => <[f := r]> (md_refs m) | None => md_refs m end))
  else if only_final then
    let '(ds, r) := foldl final_step (default [] (dm !! lastc), default ∅ (md_refs m !! f)) (levels cls vars) in
    let* (joint, params) := as_scalar x.2 in
    let* d := emission_relation joint params ds base true in
    let mr := <[f := r]> (md_refs m) in
    Ok (Made (<[f := d]> (md_rels m)) (match mr !! base with Some r' => <[f := r']> mr | None => mr end))
  else
    let* (joint, params) := as_scalar x.2 in
    let* st := foldM (chain_step f joint params) (ChainState m base (default [] (dm !! lastc)) ∅) (levels cls vars) in
    Ok (cn_made st).

(** gendb.cc:1073-1100 [make_hirm_schema]. *)
Definition make_hirm_schema (only_final record_is_clean : bool) (s : pschema)
    (dm : gmap string (list string)) (refs : gmap string links) : outcome made :=
  let cs := ps_classes s in
  let q := ps_query s in
  let* m := foldM (class_step cs dm refs) (Made ∅ ∅) (sorted_names cs) in
  let* rcl := at_ (cs !! pq_record q) in
  foldM (fun m f => queryfield_step only_final record_is_clean cs dm refs (pq_record q) rcl m
                      (f, default [] (pq_fields q !! f))) m (sorted_names (pq_fields q)).
