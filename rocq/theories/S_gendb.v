(** Specification vocabulary for PClean schemas: references between classes, domain lists
    and reference links. *)
From stdpp Require Import gmap strings list sorting relations.
From Verif Require Import M_base M_irm M_pclean_io M_gendb.

(** Field [f] of class [c] refers to class [k]. *)
Definition refers (cs : gmap string pclass) (c f k : string) : Prop :=
  exists cl, cs !! c = Some cl /\ cl !! f = Some (PClassVar k).
Definition references (cs : gmap string pclass) (c k : string) : Prop := exists f, refers cs c f k.
(** Every class that is referred to is declared. *)
Definition closed_schema (cs : gmap string pclass) : Prop := forall c f k, refers cs c f k -> is_Some (cs !! k).
(** No class refers to itself, directly or through others. *)
Definition acyclic (cs : gmap string pclass) : Prop := forall c, ~ tc (references cs) c c.

(** The reference fields of a class with the classes they refer to, by increasing name. *)
Definition reference_fields (cl : pclass) (fks : list (string * string)) : Prop :=
  StronglySorted str_le fks.*1 /\ NoDup fks.*1 /\
  forall f k, (f, k) ∈ fks <-> cl !! f = Some (PClassVar k).

(** The link of field [f] of the entity at position [i]. *)
Definition link (r : links) (i : nat) (f : string) : option nat := m ← r !! i; m !! f.

(** The reference links of an item vector whose entities are of the classes [ds]. *)
Record links_right (cs : gmap string pclass) (ds : list string) (r : links) : Prop := {
  (* every reference field of every entity leads to an earlier entity of the class it refers to *)
  lr_present : forall i k f k', ds !! i = Some k -> refers cs k f k' ->
    exists j, link r i f = Some j /\ j < i /\ ds !! j = Some k';
  (* every entity but the last is referred to by exactly one field of one entity *)
  lr_covered : forall j, S j < length ds -> exists i k f k',
    ds !! i = Some k /\ refers cs k f k' /\ link r i f = Some j;
  lr_unique : forall i i' k k' f f' q q' j, ds !! i = Some k -> refers cs k f q -> link r i f = Some j ->
    ds !! i' = Some k' -> refers cs k' f' q' -> link r i' f' = Some j -> i = i' /\ f = f';
  (* nothing is recorded for entities without reference fields *)
  lr_nothing_else : forall i, is_Some (r !! i) -> exists k f k', ds !! i = Some k /\ refers cs k f k';
}.
(** Only reference fields of the entity's class are recorded for it. *)
Definition links_exact (cs : gmap string pclass) (ds : list string) (r : links) : Prop :=
  forall i f j, link r i f = Some j -> exists k k', ds !! i = Some k /\ refers cs k f k'.
(** No chain of references of length three starts at [c]. *)
Definition shallow (cs : gmap string pclass) (c : string) : Prop :=
  forall k k' k'', references cs c k -> references cs k k' -> references cs k' k'' -> False.
