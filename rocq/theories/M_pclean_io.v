(** The reader of PClean schema files: pclean/schema.hh and pclean/io.cc. *)
From Coq Require Import String Ascii.
From stdpp Require Import gmap strings list.
From Verif Require Import M_base M_text M_parse M_io.
Local Open Scope nat_scope.

(** schema.hh:11-26: a variable of a class.  The name is the key under which it is stored. *)
Inductive pvar := PScalar (joint : string) (params : gmap string string) | PClassVar (cls : string).
(** schema.hh:28-33 [PCleanClass]; the name is the key under which it is stored. *)
Definition pclass : Type := gmap string pvar.
(** schema.hh:35-47: the fields of a query, by name, with their class paths. *)
Record pquery := PQuery { pq_record : string; pq_fields : gmap string (list string) }.
(** schema.hh:49-53 *)
Record pschema := PSchema { ps_classes : gmap string pclass; ps_query : pquery }.
Definition pschema_empty : pschema := PSchema ∅ (PQuery "" ∅).

Definition val (t : token) : string := str (t_val t).
Definition is_val (t : token) (s : string) : bool := teqb (t_val t) (txt s).
(** [std::isupper(s[0])]: the first character of an empty string is NUL; a negative
    character is undefined behaviour. *)
Definition first_upper (t : token) : outcome bool :=
  match t_val t with
  | [] => Ok false
  | c :: _ => if ascii7 c then Ok (isupper c) else UB
  end.

(** io.cc:38-54: the loop over parameters, on the tokens from position [i] on.  The test
    [i + 3 > size] lets [tokens[i+3]] be read one past the end. *)
Fixpoint var_params (ts : list token) (ps : gmap string string) : outcome (option (gmap string string)) :=
  match ts with
  | [] | [_] => Ok (Some ps)
  | k :: e :: ts =>
    match ts with
    | [] => Ok None
    | v :: ts =>
      if negb (is_val e "=") then Ok None
      else match ts with
           | [] => UB
           | s :: ts => if is_val s "," || is_val s ")" then var_params ts (<[val k := val v]> ps) else Ok None
           end
    end
  end.
(** io.cc:26-59 [resolve_variable_definition]; [None] means that false is returned.
    [tokens[2]] is read without a check; the caller makes sure that it exists. *)
Definition resolve_variable (ts : list token) : outcome (option pvar) :=
  let* t2 := idx_ (ts !! 2) in
  let* up := if bool_decide (length ts = 3) then first_upper t2 else Ok false in
  if up : bool then Ok (Some (PClassVar (val t2)))
  else
    let* ps := var_params (drop 4 ts) ∅ in
    Ok (match ps with Some ps => Some (PScalar (val t2) ps) | None => None end).

(** io.cc:68-107 [read_class]: the lines of the stream, the returned bool, the class as
    filled so far and the lines left in the stream. *)
Fixpoint read_class (ls : list text) (c : pclass) : outcome (bool * pclass * list text) :=
  match ls with
  | [] => Ok (true, c, [])
  | l :: ls =>
    match l with
    | [] => Ok (true, c, ls)
    | _ =>
      let* (b, ts) := tokenize l in
      if negb b then Ok (false, c, ls)
      else match ts with
           | [] => read_class ls c
           | t0 :: ts' =>
             if length ts <? 3 then Ok (false, c, ls)
             else
               let* t1 := idx_ (ts !! 1) in
               if negb (is_val t1 "~") then Ok (false, c, ls)
               else
                 let* v := resolve_variable ts in
                 match v with
                 | None => Ok (false, c, ls)
                 | Some v => read_class ls (<[val t0 := v]> c)
                 end
           end
    end
  end.

(** io.cc:155-164: the class path, at the even positions; the others must be dots. *)
Fixpoint class_path (ts : list token) : option (list string) :=
  match ts with
  | [] => Some []
  | [t] => Some [val t]
  | t :: d :: ts => if is_val d "." then p ← class_path ts; Some (val t :: p) else None
  end.
(** io.cc:118-169 [read_query] *)
Fixpoint read_query (ls : list text) (q : pquery) : outcome (bool * pquery * list text) :=
  match ls with
  | [] => Ok (true, q, [])
  | l :: ls =>
    match l with
    | [] => Ok (true, q, ls)
    | _ =>
      let* (b, ts) := tokenize l in
      if negb b then Ok (false, q, ls)
      else match ts with
           | [] => read_query ls q
           | t0 :: _ =>
             if is_val t0 "from" then
               if negb (length ts =? 2) then Ok (false, q, ls)
               else if negb (bool_decide (pq_record q = ""%string)) then Ok (false, q, ls)
               else let* t1 := idx_ (ts !! 1) in read_query ls (PQuery (val t1) (pq_fields q))
             else if length ts <? 3 then Ok (false, q, ls)
             else
               let* tl := idx_ (last ts) in
               match class_path (take (length ts - 2) ts) with
               | None => Ok (false, q, ls)
               | Some p => read_query ls (PQuery (pq_record q) (<[val tl := p]> (pq_fields q)))
               end
           end
    end
  end.

(** io.cc:171-236 [read_schema].  The result is the returned bool and the schema as filled
    so far.  [fuel]: the number of lines bounds the number of rounds. *)
Fixpoint read_pschema_from (fuel : nat) (ls : list text) (s : pschema) : outcome (bool * pschema) :=
  match fuel with
  | 0 => OutOfFuel
  | S fuel =>
    match ls with
    | [] => Ok (true, s)
    | l :: ls =>
      let* (b, ts) := tokenize l in
      if negb b then Ok (false, s)
      else match ts with
           | [] => read_pschema_from fuel ls s
           | t0 :: _ =>
             if negb (bool_decide (t_type t0 = TIdent)) then Ok (false, s)
             else if is_val t0 "class" then
               if negb (length ts =? 2) then Ok (false, s)
               else
                 let* t1 := idx_ (ts !! 1) in
                 let* _ := first_upper t1 in
                 let* (r, ls) := read_class ls ∅ in
                 let '(ok, c) := r in
                 if negb ok then Ok (false, s)
                 else read_pschema_from fuel ls (PSchema (<[val t1 := c]> (ps_classes s)) (ps_query s))
             else if is_val t0 "observe" then
               if negb (bool_decide (pq_record (ps_query s) = ""%string)) then Ok (false, s)
               else if negb (length ts =? 1) then Ok (false, s)
               else
                 let* (r, ls) := read_query ls (ps_query s) in
                 let '(ok, q) := r in
                 let s := PSchema (ps_classes s) q in
                 if negb ok then Ok (false, s) else read_pschema_from fuel ls s
             else Ok (false, s)
           end
    end
  end.
Definition read_pschema (file : text) : outcome (bool * pschema) :=
  let ls := getlines newline file in
  read_pschema_from (S (length ls)) ls pschema_empty.
