(** Bytes, character classes and stream helpers shared by the parsers. *)
From Coq Require Import String Ascii.
From stdpp Require Import base list strings.
From Coq Require Import ZArith.
From Verif Require Import M_base.
Local Open Scope nat_scope.

(** A [std::string] is a list of bytes; byte values 128..255 are negative [char]s on
    the platforms the code targets. *)
Notation text := (list ascii).
Definition txt (s : string) : text := list_ascii_of_string s.
Definition str (t : text) : string := string_of_list_ascii t.
Definition code (c : ascii) : nat := nat_of_ascii c.

(** <cctype> in the "C" locale.  Passing a negative [char] is undefined behaviour
    (C 7.4p1); the callers check [ascii7] first. *)
Definition ascii7 (c : ascii) : bool := code c <? 128.
Definition isspace (c : ascii) : bool := (code c =? 32) || ((9 <=? code c) && (code c <=? 13)).
Definition isdigit (c : ascii) : bool := (48 <=? code c) && (code c <=? 57).
Definition isupper (c : ascii) : bool := (65 <=? code c) && (code c <=? 90).
Definition islower (c : ascii) : bool := (97 <=? code c) && (code c <=? 122).
Definition isalnum (c : ascii) : bool := isdigit c || isupper c || islower c.

Definition ceqb (c d : ascii) : bool := bool_decide (c = d).
Definition in_chars (c : ascii) (l : text) : bool := existsb (ceqb c) l.
Definition teqb (a b : text) : bool := bool_decide (a = b).

(** Longest prefix satisfying a test, and the rest. *)
Fixpoint span (p : ascii -> bool) (l : text) : text * text :=
  match l with
  | [] => ([], [])
  | c :: l' => if p c then let '(a, b) := span p l' in (c :: a, b) else ([], l)
  end.

Definition newline : ascii := ascii_of_nat 10.

(** The successive results of [while (std::getline(stream, part, d))]: text up to each
    delimiter; a last part that is empty (nothing after the last delimiter) is not
    returned, because [getline] then fails. *)
Fixpoint getlines_from (d : ascii) (acc : text) (l : text) : list text :=
  match l with
  | [] => match acc with [] => [] | _ => [rev acc] end
  | c :: l' => if ceqb c d then rev acc :: getlines_from d [] l' else getlines_from d (c :: acc) l'
  end.
Definition getlines (d : ascii) (l : text) : list text := getlines_from d [] l.

(** The successive results of [for (std::string w; stream >> w;)]: maximal runs of
    characters that are not white space. *)
Fixpoint words_from (acc : text) (l : text) : list text :=
  match l with
  | [] => match acc with [] => [] | _ => [rev acc] end
  | c :: l' =>
    if isspace c then match acc with [] => words_from [] l' | _ => rev acc :: words_from [] l' end
    else words_from (c :: acc) l'
  end.
Definition words (l : text) : list text := words_from [] l.
