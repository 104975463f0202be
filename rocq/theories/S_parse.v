(** What a line of a schema file means as a list of tokens, as a grammar. *)
From Coq Require Import String Ascii.
From stdpp Require Import base list strings.
From Verif Require Import M_base M_text M_parse.
Local Open Scope nat_scope.

Definition between (c lo hi : ascii) : Prop := code lo <= code c <= code hi.
Definition digit (c : ascii) : Prop := between c "0"%char "9"%char.
Definition letter (c : ascii) : Prop := between c "a"%char "z"%char \/ between c "A"%char "Z"%char.
Definition white (c : ascii) : Prop :=
  c = " "%char \/ between c (ascii_of_nat 9) (ascii_of_nat 13).   (* blank, \t \n \v \f \r *)
Definition quote (c : ascii) : Prop := c = """"%char \/ c = "'"%char.
Definition punctuation (c : ascii) : Prop :=
  c ∈ ["~"; "("; ")"; "["; "]"; "{"; "}"; "<"; ">"; "."; ","; ":"; ";"; "="; "+"; "*"; "-"; "/"]%char.
Definition number_char (c : ascii) : Prop := digit c \/ c = "."%char \/ c = "_"%char.
Definition name_char (c : ascii) : Prop := digit c \/ letter c \/ c = "_"%char.

(** The first character, if there is one. *)
Definition starts (P : ascii -> Prop) (l : text) : Prop := exists c l', l = c :: l' /\ P c.

(** How a token is written. *)
Definition spells (t : token) (s : text) : Prop :=
  match t_type t with
  | TIdent => s = t_val t /\ starts (fun c => letter c \/ c = "_"%char) s /\ Forall name_char s
  | TNumber => s = t_val t /\ starts digit s /\ Forall number_char s
  | TSymbol => s = t_val t /\ exists c, s = [c] /\ punctuation c
  | TString => exists q, quote q /\ q ∉ t_val t /\ s = [q] ++ t_val t ++ [q]
  end.
(** A name or number ends where the text no longer continues it. *)
Definition ends_before (t : token) (rest : text) : Prop :=
  match t_type t with
  | TIdent => ~ starts name_char rest
  | TNumber => ~ starts number_char rest
  | _ => True
  end.

(** [reads l ts rest]: from the start of [l], up to [rest], one can read exactly the
    tokens [ts], separated by nothing but white space. *)
Inductive reads : text -> list token -> text -> Prop :=
| reads_stop l : reads l [] l
| reads_white c l ts rest : white c -> reads l ts rest -> reads (c :: l) ts rest
| reads_token t s l ts rest :
    spells t s -> ends_before t l -> reads l ts rest -> reads (s ++ l) (t :: ts) rest.

(** The line is a sequence of tokens, possibly followed by a comment. *)
Definition accepted (line : text) (ts : list token) : Prop :=
  exists rest, reads line ts rest /\ (rest = [] \/ starts (eq "#"%char) rest).
(** After the tokens [ts] comes a quote that is never closed or a character that can
    start nothing. *)
Definition unclosed (l : text) : Prop := exists q l', quote q /\ l = q :: l' /\ q ∉ l'.
Definition illegal (c : ascii) : Prop :=
  c <> "#"%char /\ ~ white c /\ ~ quote c /\ ~ punctuation c /\ ~ name_char c.
Definition rejected (line : text) (ts : list token) : Prop :=
  exists rest, reads line ts rest /\ (unclosed rest \/ starts illegal rest).

(** Seven-bit text without NUL. *)
Definition plain (c : ascii) : Prop := 0 < code c < 128.

(** A canonical rendering: each token followed by a blank. *)
Definition canonical (t : token) : text :=
  match t_type t with
  | TString => if bool_decide ("'"%char ∈ t_val t) then [""""%char] ++ t_val t ++ [""""%char]
               else ["'"%char] ++ t_val t ++ ["'"%char]
  | _ => t_val t
  end.
Definition render (ts : list token) : text := concat (map (fun t => canonical t ++ [" "%char]) ts).
(** Tokens that can be written at all. *)
Definition writable (t : token) : Prop := exists s, spells t s.
