(** What a PClean schema file says. *)
From Coq Require Import String Ascii.
From stdpp Require Import gmap strings list.
From Verif Require Import M_base M_text M_parse M_io M_pclean_io S_parse S_io.
Local Open Scope nat_scope.

Definition says (t : token) (s : string) : Prop := t_val t = txt s.
(** The first letter is a capital. *)
Definition capital (t : token) : Prop := starts (fun c => between c "A"%char "Z"%char) (t_val t).
(** The first byte, if there is one, is seven-bit. *)
Definition plain_start (t : token) : Prop := forall c l, t_val t = c :: l -> code c < 128.

(** Later entries replace earlier ones. *)
Definition latest {A} (l : list (string * A)) (m : gmap string A) : Prop :=
  forall k, m !! k = snd <$> last (filter (fun p => p.1 = k) l).

(** ** Variable definitions
    Groups [key = value separator], the separator being a comma or a closing parenthesis. *)
Inductive param_groups : list token -> list (string * string) -> Prop :=
| pg_nil : param_groups [] []
| pg_cons k e v s ts ps : says e "=" -> says s "," \/ says s ")" -> param_groups ts ps ->
    param_groups (k :: e :: v :: s :: ts) ((val k, val v) :: ps).
(** What is accepted: [name ~ Class], [name ~ joint], or [name ~ joint x] with any token [x],
    groups and perhaps one more token. *)
Inductive defines : list token -> string -> pvar -> Prop :=
| def_class n w c : says w "~" -> capital c -> defines [n; w; c] (val n) (PClassVar (val c))
| def_plain n w j : says w "~" -> plain_start j -> ~ capital j -> defines [n; w; j] (val n) (PScalar (val j) ∅)
| def_params n w j x ts more ps m : says w "~" -> param_groups ts ps -> length more <= 1 -> latest ps m ->
    defines (n :: w :: j :: x :: ts ++ more) (val n) (PScalar (val j) m).

(** The documented form: [name ~ joint(key = value, ..., key = value)]. *)
Fixpoint params_written (ps : list (string * token)) : list token :=
  match ps with
  | [] => []
  | [(k, v)] => [Tok TIdent (txt k); Tok TSymbol (txt "="); v]
  | (k, v) :: ps => [Tok TIdent (txt k); Tok TSymbol (txt "="); v; Tok TSymbol (txt ",")] ++ params_written ps
  end.
Definition definition_written (n j : string) (ps : list (string * token)) : list token :=
  [Tok TIdent (txt n); Tok TSymbol (txt "~"); Tok TIdent (txt j); Tok TSymbol (txt "(")] ++ params_written ps ++ [Tok TSymbol (txt ")")].

(** ** Blocks of lines *)
Inductive class_body : list text -> list (string * pvar) -> Prop :=
| cb_nil : class_body [] []
| cb_blank l ls vs : l <> [] -> accepted l [] -> class_body ls vs -> class_body (l :: ls) vs
| cb_var l ls ts n v vs : accepted l ts -> defines ts n v -> class_body ls vs -> class_body (l :: ls) ((n, v) :: vs).

(** A class path: names separated by dots; one more dot may follow. *)
Inductive path_written : list token -> list string -> Prop :=
| pw_nil : path_written [] []
| pw_one t : path_written [t] [val t]
| pw_cons t d ts p : says d "." -> path_written ts p -> path_written (t :: d :: ts) (val t :: p).
Inductive item := From_ (r : string) | Field (n : string) (path : list string).
Inductive item_written : list token -> item -> Prop :=
| iw_from f r : says f "from" -> item_written [f; r] (From_ (val r))
| iw_field t ts p a n : ~ says t "from" -> path_written (t :: ts) p ->
    item_written ((t :: ts) ++ [a; n]) (Field (val n) p).
Inductive query_body : list text -> list item -> Prop :=
| qb_nil : query_body [] []
| qb_blank l ls vs : l <> [] -> accepted l [] -> query_body ls vs -> query_body (l :: ls) vs
| qb_item l ls ts i vs : accepted l ts -> item_written ts i -> query_body ls vs -> query_body (l :: ls) (i :: vs).

(** A body ends with an empty line or with the file. *)
Inductive ends {A} (body : list A -> Prop) (e : A) : list A -> list A -> Prop :=
| ends_file ls : body ls -> ends body e ls []
| ends_line ls rest : body ls -> ends body e (ls ++ e :: rest) rest.

Inductive block := BClass (n : string) (vs : list (string * pvar)) | BQuery (is : list item).
Inductive blocks : list text -> list block -> Prop :=
| bl_nil : blocks [] []
| bl_blank l ls bs : accepted l [] -> blocks ls bs -> blocks (l :: ls) bs
| bl_class l n ls rest vs bs : accepted l [Tok TIdent (txt "class"); n] -> plain_start n ->
    ends (fun b => class_body b vs) [] ls rest -> blocks rest bs -> blocks (l :: ls) (BClass (val n) vs :: bs)
| bl_query l ls rest is bs : accepted l [Tok TIdent (txt "observe")] ->
    ends (fun b => query_body b is) [] ls rest -> blocks rest bs -> blocks (l :: ls) (BQuery is :: bs).

(** What the blocks say. *)
Definition class_blocks (bs : list block) : list (string * list (string * pvar)) :=
  omap (fun b => match b with BClass n vs => Some (n, vs) | _ => None end) bs.
Definition query_items (bs : list block) : list item :=
  concat (map (fun b => match b with BQuery is => is | _ => [] end) bs).
Definition fields (is : list item) : list (string * list string) :=
  omap (fun i => match i with Field n p => Some (n, p) | _ => None end) is.
Definition froms (is : list item) : list string :=
  omap (fun i => match i with From_ r => Some r | _ => None end) is.
(** Nothing but fields of the same block may follow a [from] with a name that is not empty,
    as far as the query is concerned. *)
Fixpoint one_from_items (r : string) (is : list item) : Prop :=
  match is with
  | [] => True
  | From_ r' :: is => r = ""%string /\ one_from_items r' is
  | Field _ _ :: is => one_from_items r is
  end.
Definition record_of (r : string) (is : list item) : string := default r (last (froms is)).
Fixpoint one_from (r : string) (bs : list block) : Prop :=
  match bs with
  | [] => True
  | BClass _ _ :: bs => one_from r bs
  | BQuery is :: bs => r = ""%string /\ one_from_items r is /\ one_from (record_of r is) bs
  end.
Definition says_schema (bs : list block) (s : pschema) : Prop :=
  (forall n c, ps_classes s !! n = Some c <->
     exists vs, last (filter (fun p => p.1 = n) (class_blocks bs)) = Some (n, vs) /\ latest vs c) /\
  pq_record (ps_query s) = record_of "" (query_items bs) /\
  latest (fields (query_items bs)) (pq_fields (ps_query s)).

(** ** Writing a schema *)
Inductive src_var := SClass (c : string) | SScalar (j : string) (ps : list (string * token)).
Record src := Src { src_classes : list (string * list (string * src_var)); src_record : string; src_fields : list (string * list string) }.
Definition id (s : string) : token := Tok TIdent (txt s).
Definition var_tokens (x : string) (v : src_var) : list token :=
  match v with
  | SClass c => [id x; Tok TSymbol (txt "~"); id c]
  | SScalar j ps => definition_written x j ps
  end.
Fixpoint path_tokens (p : list string) : list token :=
  match p with
  | [] => []
  | [c] => [id c]
  | c :: p => id c :: Tok TSymbol (txt ".") :: path_tokens p
  end.
Definition class_lines (c : string * list (string * src_var)) : list text :=
  render [id "class"; id c.1] :: map (fun xv => render (var_tokens xv.1 xv.2)) c.2 ++ [[]].
Definition query_lines (r : string) (fs : list (string * list string)) : list text :=
  render [id "observe"] :: map (fun f => render (path_tokens f.2 ++ [id "as"; id f.1])) fs ++ [render [id "from"; id r]; []].
Definition src_lines (s : src) : list text :=
  concat (map class_lines (src_classes s)) ++ query_lines (src_record s) (src_fields s).
(** Names are identifiers; classes begin with a capital; parameter values can be written
    on one line. *)
Definition name_ok (s : string) : Prop :=
  starts (fun c => letter c \/ c = "_"%char) (txt s) /\ Forall name_char (txt s).
Definition value_ok (t : token) : Prop := writable t /\ forall c, c ∈ t_val t -> code c <> 0 /\ c <> newline.
Definition src_var_ok (v : src_var) : Prop :=
  match v with
  | SClass c => name_ok c /\ capital (id c)
  | SScalar j ps => name_ok j /\ Forall (fun p => name_ok p.1 /\ value_ok p.2) ps
  end.
Definition src_ok (s : src) : Prop :=
  Forall (fun c => name_ok c.1 /\ Forall (fun xv => name_ok xv.1 /\ src_var_ok xv.2) c.2) (src_classes s) /\
  name_ok (src_record s) /\
  Forall (fun f => name_ok f.1 /\ f.2 <> [] /\ head f.2 <> Some "from"%string /\ Forall name_ok f.2) (src_fields s).
(** A variable as written and as stored. *)
Definition stored (v : src_var) (w : pvar) : Prop :=
  match v, w with
  | SClass c, PClassVar c' => c = c'
  | SScalar j ps, PScalar j' m => j = j' /\ latest (map (fun p => (p.1, val p.2)) ps) m
  | _, _ => False
  end.
(** The stored schema, when no name is given twice. *)
Definition stores (s : src) (t : pschema) : Prop :=
  (forall n, is_Some (ps_classes t !! n) <-> n ∈ map fst (src_classes s)) /\
  (forall n vs, (n, vs) ∈ src_classes s -> exists c, ps_classes t !! n = Some c /\
     (forall x, is_Some (c !! x) <-> x ∈ map fst vs) /\
     (forall x v, (x, v) ∈ vs -> exists w, c !! x = Some w /\ stored v w)) /\
  pq_record (ps_query t) = src_record s /\
  (forall f p, pq_fields (ps_query t) !! f = Some p <-> (f, p) ∈ src_fields s).
Definition distinct_names (s : src) : Prop :=
  NoDup (map fst (src_classes s)) /\ Forall (fun c => NoDup (map fst c.2)) (src_classes s) /\ NoDup (map fst (src_fields s)).
