(** pclean/pclean_lib.cc: rows of a table into a GenDB, and samples out of it. *)
From Coq Require Import String Ascii.
From stdpp Require Import gmap strings list sorting.
From Coq Require Import ZArith Reals.
From Verif Require Import M_base M_crp M_dist M_relation M_noisy M_irm M_hirm M_text M_parse M_io M_schema M_pclean_io M_csv
  M_gendb M_gendb_rels M_gendb_state.
Local Open Scope nat_scope.

(** [std::isprint] in the "C" locale; undefined for a negative [char]. *)
Definition printable (c : ascii) : bool := bool_decide (32 <= nat_of_ascii c <= 126).
Definition check_printable (x : string) : outcome unit :=
  foldM (fun _ c => if ascii7 c then if printable c then Ok tt else Exits else UB) tt (txt x).

Section Pclean.
Context {V : Type}.
(** [from_string] of a relation's distribution or emission, and [operator<<] of a value. *)
Variables (parse : string -> string -> outcome V) (show : V -> string) (rid : hash_fn).

(** pclean_lib.cc:19-46: the values of one row. *)
Definition row_value (g : gendb V) (df : frame) (i : nat) (vals : gmap string V) (col : string) : outcome (gmap string V) :=
  if bool_decide (col ∈ dom (pq_fields (ps_query (g_schema g)))) then
    let* x := idx_ (default [] (f_data df !! col) !! i) in
    if bool_decide (x = EmptyString) then Ok vals
    else
      let* _ := check_printable x in
      let* _ := get_relation (g_hirm g) col in
      let* v := parse col x in
      Ok (<[col := v]> vals)
  else Ok vals.
Definition row_values (g : gendb V) (df : frame) (i : nat) : outcome (gmap string V) :=
  foldM (row_value g df i) ∅ (sorted_names (f_data df)).
(** pclean_lib.cc:12-55 [incorporate_observations]; [begin()] of an empty map is not
    dereferenceable. *)
Definition incorporate_observations (g : gendb V) (df : frame) (r : rng) : outcome (gendb V * rng) :=
  let* first := idx_ (head (sorted_names (f_data df))) in
  foldM (fun '(g, r) i =>
    let* vals := row_values g df i in
    gendb_incorporate rid true g (Z.of_nat i) vals r) (g, r) (seq 0 (length (default [] (f_data df !! first)))).

(** pclean_lib.cc:59-71 [make_pclean_sample]. *)
Definition sample_field (i : Z) (st : gmap string string * gendb V * rng) (q : string) : outcome (gmap string string * gendb V * rng) :=
  let '(out, g, r) := st in
  let s := g_schema g in
  let* path := at_ (pq_fields (ps_query s) !! q) in
  let* (items, e, r) := path_entities (g_fuel g) rid (ps_classes s) (g_ents g) (pq_record (ps_query s)) path i r in
  let* (v, h, r) := hirm_sample_relation (S (size (h_schema (g_hirm g)))) (g_hirm g) q items r in
  Ok (<[q := show v]> out, g_set g e h, r).
Definition pclean_sample (g : gendb V) (i : Z) (r : rng) : outcome (gmap string string * gendb V * rng) :=
  foldM (sample_field i) (∅, g, r) (sorted_names (pq_fields (ps_query (g_schema g)))).

(** pclean_lib.cc:73-86 [make_pclean_samples]: [columns] of the frame is left empty. *)
Definition push_values (df : frame) (vals : gmap string string) : frame :=
  foldl (fun df c => Frame (f_cols df) (push (f_data df) c (default EmptyString (vals !! c)))) df (sorted_names vals).
Definition pclean_samples (n : nat) (start : Z) (g : gendb V) (r : rng) : outcome (frame * gendb V * rng) :=
  foldM (fun '(df, g, r) i =>
    let* (vals, g, r) := pclean_sample g (start + Z.of_nat i)%Z r in
    Ok (push_values df vals, g, r)) (Frame [] ∅, g, r) (seq 0 n).

(** pclean.cc:128-137: the text of the samples file. *)
Definition samples_file (n : nat) (start : Z) (g : gendb V) (r : rng) : outcome text :=
  let* (df, _, _) := pclean_samples n start g r in to_csv df.

(** pclean_lib.cc:88-103 [make_dummy_encoding_from_gendb]: entity names by class and code. *)
Definition dummy_codes (c : string) (mx : Z) : gmap Z string :=
  list_to_map (map (fun i => (Z.of_nat i, str (txt c ++ [":"%char] ++ print_int (Z.of_nat i)))) (seq 0 (Z.to_nat (mx + 1)))).
Definition dummy_encoding (g : gendb V) : outcome (gmap string (gmap Z string)) :=
  foldM (fun acc c =>
    let* crp := at_ (en_crps (g_ents g) !! c) in
    let* mx := crp_max_table crp in
    Ok (if bool_decide (0 <= mx)%Z then <[c := dummy_codes c mx]> acc else acc)) ∅ (sorted_names (en_crps (g_ents g))).
End Pclean.
