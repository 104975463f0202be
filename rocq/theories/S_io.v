(** Specification vocabulary for observation files and entity encodings. *)
From Coq Require Import String Ascii.
From stdpp Require Import gmap strings list.
From Coq Require Import ZArith.
From Verif Require Import M_base M_relation M_text M_io M_parse M_schema S_parse S_schema.
Local Open Scope nat_scope.

(** ** Encodings *)

(** Domain [d] is mentioned by the schema. *)
Definition declared_domain (schema : gmap string (list string)) (d : string) : Prop :=
  exists rel ds, schema !! rel = Some ds /\ d ∈ ds.

(** The name [x] stands at a position of domain [d] in some observation. *)
Definition occurs (schema : gmap string (list string)) (obs : observations) (d x : string) : Prop :=
  exists rel l items v ds i, obs !! rel = Some l /\ (items, v) ∈ l /\ schema !! rel = Some ds /\
    ds !! i = Some d /\ items !! i = Some x.

(** Every observation is of a declared relation and names at most one entity per domain. *)
Definition readable (schema : gmap string (list string)) (obs : observations) : Prop :=
  forall rel l items v, obs !! rel = Some l -> (items, v) ∈ l ->
    exists ds, schema !! rel = Some ds /\ length items <= length ds.

(** [f] and [r] are mutually inverse, [f] is defined on exactly the given names and its
    values are exactly 0, ..., n-1, [n] the number of names. *)
Definition numbering (names : string -> Prop) (f : gmap string Z) (r : gmap Z string) : Prop :=
  (forall x, is_Some (f !! x) <-> names x) /\
  (forall x c, f !! x = Some c <-> r !! c = Some x) /\
  (forall c, is_Some (r !! c) <-> (0 <= c < Z.of_nat (size f))%Z).

(** The codes [es] stand for the names [items], position by position. *)
Definition stands_for (r : gmap string (gmap Z string)) (ds : list string) (es : items_t) (items : list string) : Prop :=
  length es = length items /\
  forall i x, items !! i = Some x -> exists d e m,
    ds !! i = Some d /\ es !! i = Some e /\ r !! d = Some m /\ m !! e = Some x.

(** Two sets of observations with the same lists; a relation without observations may be
    listed or not. *)
Definition same_observations {A} (a b : gmap string (list A)) : Prop :=
  forall rel, default [] (a !! rel) = default [] (b !! rel).

(** ** Observation files *)

(** A field that survives being written and read: no separator in it. *)
Definition plain (s : string) : Prop := comma ∉ txt s /\ newline ∉ txt s.

(** A line of an observation file. *)
Definition separated_by (c : ascii) (l : list text) : text :=
  match l with [] => [] | a :: l' => a ++ concat (map (cons c) l') end.
Definition obs_text (rel : string) (x : observation) : text :=
  separated_by comma (txt x.2 :: txt rel :: map txt x.1).
Definition writable_obs (rel : string) (x : observation) : Prop :=
  plain rel /\ plain x.2 /\ Forall plain x.1 /\ (exists y, last x.1 = Some y /\ y <> ""%string).

(** What a line of an observation file says: a value, a declared relation and at least one
    entity, separated by commas.  A comma may follow the last field; it must if that
    field is empty. *)
Definition reads_line (schema : gset string) (line : text) (y : string * observation) : Prop :=
  y.1 ∈ schema /\ y.2.1 <> [] /\ Forall (fun f => comma ∉ f) (txt y.2.2 :: txt y.1 :: map txt y.2.1) /\
  ((line = obs_text y.1 y.2 /\ last y.2.1 <> Some ""%string) \/ line = obs_text y.1 y.2 ++ [comma]).
(** The lines of a file; the last one may lack its newline. *)
Definition file_lines (file : text) (ls : list text) : Prop :=
  Forall (fun l => newline ∉ l) ls /\
  (file = lines_of ls \/ exists ls' t, ls = ls' ++ [t] /\ t <> [] /\ file = lines_of ls' ++ t).
(** The observations of one relation, in order. *)
Definition observed_of (ys : list (string * observation)) (rel : string) : list observation :=
  map snd (filter (fun y => y.1 = rel) ys).
