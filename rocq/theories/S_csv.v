(** What a CSV file says. *)
From Coq Require Import String Ascii.
From stdpp Require Import gmap strings list.
From Verif Require Import M_base M_text M_io M_csv S_io.
Local Open Scope nat_scope.

Definition blank (c : ascii) : Prop := code c = 32 \/ 9 <= code c <= 13.

(** Text of a field: the value followed by white space.  The value is not empty and ends
    in a seven-bit character that is not white space. *)
Definition field_text (raw : text) (v : string) : Prop :=
  exists body c sp, raw = body ++ c :: sp /\ txt v = body ++ [c] /\ Forall blank sp /\ ~ blank c /\ code c < 128.

(** A row: its fields separated by commas; the last field, and no other, may be missing. *)
Definition row_text (line : text) (cells : list string) : Prop :=
  exists raws, Forall (fun raw => comma ∉ raw) raws /\ raws <> [] /\
    ((line = separated_by comma raws /\ Forall2 field_text raws cells) \/
     (line = separated_by comma raws ++ [comma] /\ exists cells', cells = cells' ++ [""%string] /\ Forall2 field_text raws cells')).
(** The header: names separated by commas; a comma may follow. *)
Definition header_text (line : text) (names : list string) : Prop :=
  exists raws, Forall (fun raw => comma ∉ raw) raws /\ raws <> [] /\ Forall2 field_text raws names /\
    (line = separated_by comma raws \/ line = separated_by comma raws ++ [comma]).

(** The columns of a table given by its rows. *)
Definition table (names : list string) (rows : list (list string)) (df : frame) : Prop :=
  f_cols df = names /\
  (forall c, is_Some (f_data df !! c) <-> c ∈ names) /\
  (forall j c, names !! j = Some c -> f_data df !! c = Some (map (fun row => row !!! j) rows)).

(** The lines of a file that are not empty. *)
Definition full_lines (ls : list text) : list text := filter (fun l => l <> []) ls.
