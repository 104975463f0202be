(** Model of cxx/util_parse.{hh,cc}. *)
From Coq Require Import String Ascii.
From stdpp Require Import base list strings.
From Verif Require Import M_base M_text.
Local Open Scope nat_scope.

(** util_parse.hh:6-11. *)
Inductive token_type := TIdent | TSymbol | TNumber | TString.
Record token := Tok { t_type : token_type; t_val : text }.
Global Instance token_type_eq_dec : EqDecision token_type. Proof. solve_decision. Defined.
Global Instance token_eq_dec : EqDecision token. Proof. solve_decision. Defined.

(** util_parse.cc:6. *)
Definition SYMBOL_CHARS : text := txt "~()[]{}<>.,:;=+*-/".

(** util_parse.cc:20 [std::strchr(SYMBOL_CHARS, c) != NULL]: the terminating NUL belongs
    to the string searched, so NUL is found too. *)
Definition strchr_symbol (c : ascii) : bool := in_chars c SYMBOL_CHARS || (code c =? 0).

(** util_parse.cc:39 and :53. *)
Definition still_numeric (c : ascii) : bool := isdigit c || ceqb c "."%char || ceqb c "_"%char.
Definition still_id (c : ascii) : bool := isalnum c || ceqb c "_"%char.

(** util_parse.cc:37-44, :50-57: extend a token while the test holds.  The test calls
    [isdigit]/[isalnum] on the next character whatever it is. *)
Definition extend (p : ascii -> bool) (l : text) : outcome (text * text) :=
  let '(a, b) := span (fun c => ascii7 c && p c) l in
  match b with
  | c :: _ => if ascii7 c then Ok (a, b) else UB
  | [] => Ok (a, b)
  end.

(** util_parse.cc:23-35: the body of a string token and what follows the closing quote;
    [None] when the quote is not closed. *)
Fixpoint quoted (q : ascii) (l : text) : option (text * text) :=
  match l with
  | [] => None
  | c :: l' =>
    if ceqb c q then Some ([], l')
    else match quoted q l' with Some (a, b) => Some (c :: a, b) | None => None end
  end.

(** util_parse.cc:7-68 [tokenize].  [i] is replaced by the list of remaining
    characters.  The result is the returned bool and the tokens pushed.  Error
    messages are not modelled.  Line 33 tests the last character read instead of
    remembering whether the loop broke; the two agree because the loop breaks as soon
    as the quote is read, and ['$'] is not a quote. *)
Definition cons_tok (t : token) (r : outcome (bool * list token)) : outcome (bool * list token) :=
  match r with Ok (b, ts) => Ok (b, t :: ts) | e => e end.
Fixpoint tokenize_from (fuel : nat) (l : text) : outcome (bool * list token) :=
  match fuel with
  | 0 => OutOfFuel
  | S fuel =>
    match l with
    | [] => Ok (true, [])
    | c :: l1 =>
      if ceqb c "#"%char then Ok (true, [])
      else if negb (ascii7 c) then UB
      else if isspace c then tokenize_from fuel l1
      else if strchr_symbol c then cons_tok (Tok TSymbol [c]) (tokenize_from fuel l1)
      else if ceqb c """"%char || ceqb c "'"%char then
        match quoted c l1 with
        | None => Ok (false, [])
        | Some (body, l2) => cons_tok (Tok TString body) (tokenize_from fuel l2)
        end
      else if isdigit c || ceqb c "."%char then
        let* (body, l2) := extend still_numeric l1 in
        cons_tok (Tok TNumber (c :: body)) (tokenize_from fuel l2)
      else if isalnum c || ceqb c "_"%char then
        let* (body, l2) := extend still_id l1 in
        cons_tok (Tok TIdent (c :: body)) (tokenize_from fuel l2)
      else Ok (false, [])
    end
  end.
Definition tokenize (line : text) : outcome (bool * list token) :=
  tokenize_from (S (length line)) line.
