(** Tables and CSV files: pclean/csv.hh and pclean/csv.cc. *)
From Coq Require Import String Ascii.
From stdpp Require Import gmap strings list.
From Verif Require Import M_base M_text M_io.
Local Open Scope nat_scope.

(** csv.hh:13-40 [DataFrame]. *)
Record frame := Frame { f_cols : list string; f_data : gmap string (list string) }.

(** csv.cc:47-50: drop white space from the end.  [back()] of an empty string is undefined
    behaviour, and so is [isspace] of a negative [char]. *)
Fixpoint strip_back (l : text) : outcome text :=
  match l with
  | [] => UB
  | c :: l' => if ascii7 c then if isspace c then strip_back l' else Ok l else UB
  end.
Definition rstrip (part : text) : outcome text :=
  let* l := strip_back (rev part) in Ok (rev l).

(** csv.cc:51-55: a field of the header line. *)
Definition header_field (df : frame) (part : text) : outcome frame :=
  let* p := rstrip part in
  Ok (Frame (f_cols df ++ [str p]) (<[str p := []]> (f_data df))).
(** csv.cc:57: [df.data[df.columns[i++]].push_back(x)]; [columns[i]] is not checked. *)
Definition put (df : frame) (i : nat) (x : string) : outcome (frame * nat) :=
  let* c := idx_ (f_cols df !! i) in
  Ok (Frame (f_cols df) (push (f_data df) c x), S i).
Definition row_field (st : frame * nat) (part : text) : outcome (frame * nat) :=
  let '(df, i) := st in
  let* p := rstrip part in
  put df i (str p).

(** csv.cc:35-71: one line.  The state is the frame and [first_line]; [given] says that
    column names were passed by the caller. *)
Definition csv_line (given : bool) (st : frame * bool) (line : text) : outcome (frame * bool) :=
  let '(df, first) := st in
  match line with
  | [] => Ok st
  | _ =>
    let parts := getlines comma line in
    if first && negb given then
      let* df := foldM header_field df parts in Ok (df, false)
    else
      let* (df, i) := foldM row_field (df, 0) parts in
      if first then Ok (df, false)
      else
        let* (df, i) := if bool_decide (last line = Some comma) then put df i "" else Ok (df, i) in
        let* _ := assert_ (bool_decide (i = length (f_cols df))) in
        Ok (df, false)
  end.
(** csv.cc:22-75 [from_csv]. *)
Definition from_csv (names : list string) (file : text) : outcome frame :=
  let df := match names with
            | [] => Frame [] ∅
            | _ => Frame names (foldl (fun m c => <[c := []]> m) ∅ names)
            end in
  let* (df, _) := foldM (csv_line (bool_decide (names <> []))) (df, true) (getlines newline file) in
  Ok df.

(** csv.cc:92-96, :102-107: fields with commas between them. *)
Definition join (l : list text) : text :=
  match l with [] => [] | a :: l' => a ++ concat (map (cons comma) l') end.
(** csv.cc:106 [data[columns[j]][i]]: a missing column is created empty. *)
Definition cell (df : frame) (i : nat) (c : string) : outcome text :=
  let* x := idx_ (default [] (f_data df !! c) !! i) in Ok (txt x).
Definition csv_row (df : frame) (out : text) (i : nat) : outcome text :=
  let* cells := foldM (fun acc c => let* x := cell df i c in Ok (acc ++ [x])) [] (f_cols df) in
  Ok (out ++ join cells ++ [newline]).
(** csv.cc:87-111 [to_csv]. *)
Definition to_csv (df : frame) : outcome text :=
  match f_cols df with
  | [] => Ok []
  | c :: _ => foldM (csv_row df) (join (map txt (f_cols df)) ++ [newline]) (seq 0 (length (default [] (f_data df !! c))))
  end.
