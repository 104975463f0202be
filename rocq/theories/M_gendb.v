(** The PClean model on top of the HIRM: the domain lists and reference indices of the
    classes.  gendb.hh and gendb.cc:887-968. *)
From stdpp Require Import gmap strings list sorting.
From Verif Require Import M_base M_irm M_pclean_io.

(** gendb.hh:256-263: position in an item vector -> reference field -> position of the
    referenced entity. *)
Notation links := (gmap nat (gmap string nat)).

(** Iteration over a [std::map<int, _>] whose keys are positions. *)
Definition sorted_positions {A} (m : gmap nat A) : list nat := merge_sort le (elements (dom m)).

(** gendb.cc:908-917: the loop over the variables of a class, in name order, with the
    recursive call [rec]; [operator[]] would create a missing entry. *)
Definition domains_step (rec : gmap string (list string) -> string -> outcome (gmap string (list string)))
    (c : pclass) (st : list string * gmap string (list string)) (v : string)
  : outcome (list string * gmap string (list string)) :=
  let '(ds, dm) := st in
  match c !! v with
  | Some (PClassVar k) =>
    let* dm := if bool_decide (k ∈ dom dm) then Ok dm else rec dm k in
    Ok (ds ++ default [] (dm !! k), dm)
  | _ => Ok (ds, dm)
  end.
(** gendb.cc:903-923 [compute_domains_for].  [fuel] bounds the depth of the recursion:
    [OutOfFuel] for every [fuel] means that the C++ recursion does not end. *)
Fixpoint compute_domains_for (fuel : nat) (cs : gmap string pclass) (dm : gmap string (list string)) (name : string)
  : outcome (gmap string (list string)) :=
  match fuel with
  | 0 => OutOfFuel
  | S fuel' =>
    let* _ := assert_ (bool_decide (name ∈ dom cs)) in
    let* c := at_ (cs !! name) in
    let* (ds, dm) := foldM (domains_step (compute_domains_for fuel' cs) c) ([], dm) (sorted_names c) in
    Ok (<[name := ds ++ [name]]> dm)
  end.
(** gendb.cc:887-893 [compute_domains_cache]. *)
Definition compute_domains (fuel : nat) (cs : gmap string pclass) : outcome (gmap string (list string)) :=
  foldM (fun dm name => if bool_decide (name ∈ dom dm) then Ok dm else compute_domains_for fuel cs dm name)
    ∅ (sorted_names cs).

(** gendb.cc:948-957: copy the links of a referenced class, moved by [offset].  The map
    [acc] (child_class_indices) is declared outside the loop over the positions, so that
    later positions also get the fields of the earlier ones. *)
Definition copy_position (offset : nat) (r : links) (st : links * gmap string nat) (ind : nat)
  : links * gmap string nat :=
  let '(ri, acc) := st in
  let acc := ((fun j => j + offset) <$> default ∅ (r !! ind)) ∪ acc in
  (<[ind + offset := acc]> ri, acc).
Definition copy_links (offset : nat) (r : links) (ri : links) : links :=
  (foldl (copy_position offset r) (ri, ∅) (sorted_positions r)).1.

Record refs_state := RefsState {
  rs_offset : nat;                 (* :927 total_offset *)
  rs_links : links;                (* :934 ref_indices *)
  rs_own : gmap string nat;        (* :937 class_ref_indices *)
  rs_cache : gmap string links;    (* class_reference_indices *)
}.
(** gendb.cc:938-960. *)
Definition refs_step (rec : gmap string links -> string -> outcome (gmap string links))
    (dm : gmap string (list string)) (c : pclass) (st : refs_state) (v : string) : outcome refs_state :=
  match c !! v with
  | Some (PClassVar k) =>
    let* cache := if bool_decide (k ∈ dom (rs_cache st)) then Ok (rs_cache st) else rec (rs_cache st) k in
    let* d := at_ (dm !! k) in
    let offset := rs_offset st in
    let total := offset + length d in
    let ri := match cache !! k with
              | Some r => copy_links offset r (rs_links st)
              | None => rs_links st
              end in
    Ok (RefsState total ri (<[v := total - 1]> (rs_own st)) cache)
  | _ => Ok st
  end.
(** gendb.cc:925-968 [compute_reference_indices_for]. *)
Fixpoint compute_refs_for (fuel : nat) (cs : gmap string pclass) (dm : gmap string (list string))
    (cache : gmap string links) (name : string) : outcome (gmap string links) :=
  match fuel with
  | 0 => OutOfFuel
  | S fuel' =>
    let* _ := assert_ (bool_decide (name ∈ dom cs)) in
    let* c := at_ (cs !! name) in
    let* st := foldM (refs_step (compute_refs_for fuel' cs dm) dm c) (RefsState 0 ∅ ∅ cache) (sorted_names c) in
    if bool_decide (rs_own st = ∅) then Ok (rs_cache st)
    else Ok (<[name := <[rs_offset st := rs_own st]> (rs_links st)]> (rs_cache st))
  end.
(** gendb.cc:895-901 [compute_reference_indices_cache]. *)
Definition compute_refs (fuel : nat) (cs : gmap string pclass) (dm : gmap string (list string))
  : outcome (gmap string links) :=
  foldM (fun cache name => if bool_decide (name ∈ dom cache) then Ok cache else compute_refs_for fuel cs dm cache name)
    ∅ (sorted_names cs).
