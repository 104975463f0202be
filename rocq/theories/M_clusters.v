(** Cluster files: util_io.cc:435-668. *)
From Coq Require Import String Ascii.
From stdpp Require Import gmap sorting strings list.
From Coq Require Import ZArith Reals.
From Verif Require Import M_base M_dist M_crp M_domain M_relation M_noisy M_irm M_hirm M_text M_io.
Local Open Scope nat_scope.

(** A [std::set<std::string>] in order. *)
Definition sorted_set (s : gset string) : list string := merge_sort str_le (elements s).
Definition space : ascii := " "%char.

(** util_io.cc:448-451: the names of the items of a table, [code_to_item.at(d).at(item)]. *)
Definition name_item (rev : gmap string (gmap Z string)) (d : string) (acc : gset string) (i : Z) : outcome (gset string) :=
  let* m := at_ (rev !! d) in
  let* x := at_ (m !! i) in
  Ok ({[x]} ∪ acc).
(** util_io.cc:452-457, :469-475: a blank after every word but the [n]-th. *)
Fixpoint spaced (n i : nat) (l : list string) : text :=
  match l with
  | [] => []
  | x :: l' => txt x ++ (if bool_decide (i < n) then [space] else []) ++ spaced n (S i) l'
  end.
(** util_io.cc:441-459: one domain. *)
Definition write_table (o : orders) (rev : gmap string (gmap Z string)) (d : string) (c : crp) (out : text) (t : Z) : outcome text :=
  let items := default ∅ (crp_tables c !! t) in
  let* names := foldM (name_item rev d) ∅ (o_ents o items) in
  Ok (out ++ txt d ++ [space] ++ print_int t ++ [space] ++ spaced (size items) 1 (sorted_set names) ++ [newline]).
Definition write_domain (o : orders) (rev : gmap string (gmap Z string)) (W : world) (out : text) (d : string) : outcome text :=
  let* dm := at_ (W !! d) in
  foldM (write_table o rev d (dom_crp dm)) out (sorted_keys (crp_tables (dom_crp dm))).
(** util_io.cc:435-461 [to_txt] of an IRM; the domains are in an [unordered_map]. *)
Definition irm_to_txt (o : orders) (rev : gmap string (gmap Z string)) (W : world) (out : text) : outcome text :=
  foldM (write_domain o rev W) out (o_names o (dom W)).

Section Hirm.
Context {V : Type}.
(** util_io.cc:463-490 [to_txt] of a HIRM. *)
Definition write_rels (o : orders) (h : hirm V) (out : text) (t : Z) : outcome text :=
  let rcs := default ∅ (crp_tables (h_crp h) !! t) in
  let* names := foldM (fun acc rc => let* n := at_ (h_rel h !! rc) in Ok (acc ++ [n])) [] (o_ents o rcs) in
  Ok (out ++ print_int t ++ [space] ++ spaced (size rcs) 1 names ++ [newline]).
Definition write_irm (o : orders) (rev : gmap string (gmap Z string)) (h : hirm V) (n : nat) (st : text * nat) (t : Z)
  : outcome (text * nat) :=
  let '(out, j) := st in
  let* ir := at_ (h_irms h !! t) in
  let* out := irm_to_txt o rev (i_domains ir) (out ++ txt "irm=" ++ print_int t ++ [newline]) in
  Ok (if bool_decide (S j < n) then (out ++ [newline], S j) else (out, j)).
Definition hirm_to_txt (o : orders) (rev : gmap string (gmap Z string)) (h : hirm V) : outcome text :=
  let ts := sorted_keys (crp_tables (h_crp h)) in
  let* out := foldM (write_rels o h) [] ts in
  let* (out, _) := foldM (write_irm o rev h (length ts)) (out ++ [newline], 0) ts in
  Ok out.
End Hirm.

(** [stream >> word]: skips white space; fails at the end. *)
Definition next_word (l : text) : option (text * text) :=
  let '(_, l) := span isspace l in
  match l with [] => None | _ => Some (span (fun c => negb (isspace c)) l) end.
(** Digits in base ten. *)
Definition digits_value (l : text) : Z := fold_left (fun a c => 10 * a + (Z.of_nat (code c) - 48))%Z l 0%Z.
Definition in_int (z : Z) : bool := bool_decide (- 2 ^ 31 <= z < 2 ^ 31)%Z.
(** An optional sign and digits; [None] without a digit. *)
Definition sign_of (l : text) : bool * text :=
  match l with c :: l' => if ceqb c "-"%char then (true, l') else if ceqb c "+"%char then (false, l') else (false, l) | [] => (false, []) end.
Definition scan_int (l : text) : option (Z * text) :=
  let '(neg, l) := sign_of (snd (span isspace l)) in
  let '(ds, rest) := span isdigit l in
  match ds with [] => None | _ => Some (if neg : bool then (- digits_value ds)%Z else digits_value ds, rest) end.
(** [stream >> table] for an [int]: out of range sets the fail bit. *)
Definition read_int (l : text) : option (Z * text) :=
  match scan_int l with Some (z, rest) => if in_int z then Some (z, rest) else None | None => None end.
(** [std::stoi]: throws without a number and out of range, and ignores what follows. *)
Definition stoi (l : text) : outcome Z :=
  match scan_int l with Some (z, _) => if in_int z then Ok z else Throws | None => Throws end.

(** util_io.cc:508-546 [load_clusters_irm].  Once an extraction fails the others do too, and
    the list of items is empty.  A file that cannot be opened fails an assertion and is not
    modelled. *)
Notation clusters := (gmap string (gmap Z (list string))).
Definition irm_line (cl : clusters) (line : text) : outcome clusters :=
  match line with
  | [] => Ok cl
  | _ =>
    match next_word line with
    | None => AssertFail
    | Some (d, rest) =>
      match read_int rest with
      | None => AssertFail
      | Some (t, rest) =>
        let items := map str (words rest) in
        let* _ := assert_ (bool_decide (items <> [])) in
        let m := default ∅ (cl !! str d) in
        let* _ := assert_ (bool_decide (m !! t = None)) in
        Ok (<[str d := <[t := items]> m]> cl)
      end
    end
  end.
Definition load_clusters_irm (file : text) : outcome clusters := foldM irm_line ∅ (getlines newline file).

(** util_io.cc:548-555 [isnumeric]; [isdigit] of a negative [char] is undefined. *)
Fixpoint all_digits (l : text) : outcome bool :=
  match l with
  | [] => Ok true
  | c :: l' => if ascii7 c then if isdigit c then all_digits l' else Ok false else UB
  end.
Definition isnumeric (l : text) : outcome bool :=
  let* b := all_digits l in Ok (b && bool_decide (l <> [])).

(** util_io.cc:559-634 [load_clusters_hirm]. *)
Record hload := Hload {
  hl_rels : gmap Z (list string);
  hl_irms : gmap Z clusters;
  hl_irm : Z;                       (* irmc *)
}.
Definition hirm_line (s : hload) (line : text) : outcome hload :=
  match line with
  | [] => Ok (Hload (hl_rels s) (hl_irms s) (-1))
  | _ =>
    let '(first, rest) := default ([], []) (next_word line) in
    let* num := isnumeric first in
    if num then
      let* t := stoi first in
      let items := map str (words rest) in
      let* _ := assert_ (bool_decide (items <> [])) in
      let* _ := assert_ (bool_decide (hl_rels s !! t = None)) in
      Ok (Hload (<[t := items]> (hl_rels s)) (hl_irms s) (hl_irm s))
    else if bool_decide (take 4 first = txt "irm=") then
      let* _ := assert_ (bool_decide (hl_irm s = (-1)%Z)) in
      let* _ := assert_ (bool_decide (4 < length first)) in
      let* t := stoi (drop 4 first) in
      let* _ := assert_ (bool_decide (hl_irms s !! t = None)) in
      Ok (Hload (hl_rels s) (<[t := ∅]> (hl_irms s)) t)
    else
      let* _ := assert_ (bool_decide (-1 < hl_irm s)%Z) in
      let* _ := assert_ (bool_decide (hl_irms s !! hl_irm s <> None)) in
      let '(second, rest) := default ([], []) (next_word rest) in
      let* _ := assert_ (bool_decide (second <> [])) in
      let* num := isnumeric second in
      let* _ := assert_ num in
      let* t := stoi second in
      let items := map str (words rest) in
      let* _ := assert_ (bool_decide (items <> [])) in
      let* cl := at_ (hl_irms s !! hl_irm s) in
      let m := default ∅ (cl !! str first) in
      let* _ := assert_ (bool_decide (m !! t = None)) in
      Ok (Hload (hl_rels s) (<[hl_irm s := <[str first := <[t := items]> m]> cl]> (hl_irms s)) (hl_irm s))
  end.
Definition load_clusters_hirm (file : text) : outcome (gmap Z (list string) * gmap Z clusters) :=
  let* s := foldM hirm_line (Hload ∅ ∅ 0) (getlines newline file) in
  let* _ := assert_ (bool_decide (size (hl_rels s) = size (hl_irms s))) in
  let* _ := assert_ (bool_decide (dom (hl_rels s) ⊆ dom (hl_irms s))) in
  Ok (hl_rels s, hl_irms s).

(** util_io.cc:650-664: the clusters into the empty domains of an IRM. *)
Definition seat_item (fwd : gmap string (gmap string Z)) (d : string) (t : Z) (st : world * rng) (x : string) : outcome (world * rng) :=
  let '(W, r) := st in
  let* m := at_ (fwd !! d) in
  let* i := at_ (m !! x) in
  let* dm := at_ (W !! d) in
  let* (dm, r) := dom_incorporate dm i t r in
  Ok (<[d := dm]> W, r).
Definition seat_table (fwd : gmap string (gmap string Z)) (d : string) (m : gmap Z (list string)) (st : world * rng) (t : Z) : outcome (world * rng) :=
  let* _ := assert_ (bool_decide (0 <= t)%Z) in
  foldM (seat_item fwd d t) st (default [] (m !! t)).
Definition seat_domain (fwd : gmap string (gmap string Z)) (cl : clusters) (st : world * rng) (d : string) : outcome (world * rng) :=
  let* dm := at_ (st.1 !! d) in
  let* _ := assert_ (bool_decide (dom_items dm = ∅)) in
  let m := default ∅ (cl !! d) in
  foldM (seat_table fwd d m) st (sorted_keys m).
Definition seat_clusters (fwd : gmap string (gmap string Z)) (cl : clusters) (W : world) (r : rng) : outcome (world * rng) :=
  foldM (seat_domain fwd cl) (W, r) (sorted_names cl).
