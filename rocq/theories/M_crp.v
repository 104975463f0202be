(** Model of the Chinese restaurant process: cxx/distributions/crp.{hh,cc}. *)
From stdpp Require Import gmap.
From Coq Require Import ZArith Reals.
From Verif Require Import M_base M_math.

(** crp.hh:13-43.  [int N], [std::map] and [unordered_map] become [Z], [gmap];
    [double alpha] becomes a real number. *)
Record crp := Crp {
  crp_alpha : R;
  crp_N : Z;
  crp_tables : gmap Z (gset Z);
  crp_assignments : gmap Z Z;
}.

(** crp.hh:15-21 default member initialisers. *)
Definition crp_new : crp := Crp 1%R 0 ∅ ∅.

(** crp.cc:13-21 [CRP::incorporate]. *)
Definition crp_incorporate (c : crp) (item table : Z) : outcome crp :=
  let* _ := assert_ (bool_decide (crp_assignments c !! item = None)) in
  let tables1 :=
    match crp_tables c !! table with
    | None => <[table := ∅]> (crp_tables c)
    | Some _ => crp_tables c
    end in
  let* s := at_ (tables1 !! table) in
  Ok (Crp (crp_alpha c) (crp_N c + 1)
          (<[table := {[item]} ∪ s]> tables1)
          (<[item := table]> (crp_assignments c))).

(** crp.cc:23-32 [CRP::unincorporate]. *)
Definition crp_unincorporate (c : crp) (item : Z) : outcome crp :=
  let* _ := assert_ (bool_decide (is_Some (crp_assignments c !! item))) in
  let* table := at_ (crp_assignments c !! item) in
  let* s := at_ (A:=gset Z) (crp_tables c !! table) in
  let s' : gset Z := s ∖ {[item]} in
  let tables' :=
    if bool_decide (s' = ∅) then delete table (crp_tables c)
    else <[table := s']> (crp_tables c) in
  Ok (Crp (crp_alpha c) (crp_N c - 1) tables' (delete item (crp_assignments c))).

(** crp.cc:72-77 [CRP::max_table]; [rbegin] of an empty map is undefined. *)
Definition crp_max_table (c : crp) : outcome Z :=
  if bool_decide (crp_N c = 0%Z) then Ok (-1)%Z
  else idx_ (max_key (crp_tables c)).

(** crp.cc:79-90 [CRP::tables_weights]. *)
Definition crp_tables_weights (c : crp) : outcome (gmap Z R) :=
  if bool_decide (crp_N c = 0%Z) then Ok {[0%Z := 1%R]}
  else
    let* m := crp_max_table c in
    Ok (<[(m + 1)%Z := crp_alpha c]> ((fun s : gset Z => INR (size s)) <$> crp_tables c)).

(** crp.cc:92-103 [CRP::tables_weights_gibbs]; [--dist.at(table)] then the test
    [== 0] against the decremented weight. *)
Definition crp_tables_weights_gibbs (c : crp) (table : Z) : outcome (gmap Z R) :=
  let* _ := assert_ (bool_decide (0 < crp_N c)%Z) in
  let* _ := assert_ (bool_decide (is_Some (crp_tables c !! table))) in
  let* dist := crp_tables_weights c in
  let* w := at_ (dist !! table) in
  if Req_EM_T (w - 1)%R 0%R then
    let dist' := <[table := crp_alpha c]> dist in
    let* t_max := idx_ (max_key dist') in
    Ok (delete t_max dist')
  else Ok (<[table := (w - 1)%R]> dist).

(** crp.cc:34-46 [CRP::sample]: the entries of [tables_weights] in key order,
    one of which is drawn. *)
Definition crp_sample (c : crp) (r : rng) : outcome (Z * rng) :=
  let* dist := crp_tables_weights c in
  let items := sorted_keys dist in
  let '(i, r') := choose_index (length items) r in
  let* t := idx_ (items !! i) in
  Ok (t, r').

(** crp.cc:48 [CRP::logp_new_table]. *)
Definition crp_logp_new_table (c : crp) : R :=
  (ln (crp_alpha c) - ln (IZR (crp_N c) + crp_alpha c))%R.

(** crp.cc:50-58 [CRP::logp]; [None] is minus infinity. *)
Definition crp_logp (c : crp) (table : Z) : outcome (option R) :=
  let* dist := crp_tables_weights c in
  match dist !! table with
  | None => Ok None
  | Some numer => Ok (Some (ln numer - ln (IZR (crp_N c) + crp_alpha c))%R)
  end.

(** crp.cc:60-70 [CRP::logp_score]; [lg] is the C library's [lgamma]. *)
Definition crp_logp_score (lg : R -> R) (c : crp) : R :=
  (INR (size (crp_tables c)) * ln (crp_alpha c)
   + map_fold (fun _ (s : gset Z) acc => lg (INR (size s)) + acc) 0 (crp_tables c)
   + lg (crp_alpha c) - lg (IZR (crp_N c) + crp_alpha c))%R.

(** crp.cc:105-118 [CRP::transition_alpha]: a grid point is drawn with
    [log_choice] from the scores at the grid points. *)
Definition crp_set_alpha (c : crp) (g : R) : crp :=
  Crp g (crp_N c) (crp_tables c) (crp_assignments c).
Definition crp_transition_alpha (lg : R -> R) (c : crp) (r : rng) : outcome (crp * rng) :=
  if bool_decide (crp_N c = 0%Z) then Ok (c, r)
  else
    let* grid := log_linspace (1 / IZR (crp_N c)) (IZR (crp_N c) + 1) 20 true in
    let logps := map (fun g => Some (crp_logp_score lg (crp_set_alpha c g))) grid in
    let* (i, r') := log_choice logps r in
    let* a := idx_ (grid !! i) in
    Ok (crp_set_alpha c a, r').
