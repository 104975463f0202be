(** Vocabulary for held-out observations. *)
From Coq Require Import String Ascii.
From stdpp Require Import gmap strings list.
From Coq Require Import ZArith Reals.
From Verif Require Import M_base M_text M_io.
Local Open Scope nat_scope.

Section SHeldout.
Context {V : Type} (parse : string -> string -> outcome V).

(** The code of every name of an observation in the domain of its position. *)
Definition coded (f : gmap string (gmap string Z)) (ds names : list string) (items : list Z) : Prop :=
  length names <= length ds /\ Forall2 (fun (p : string * string) c => exists m, f !! p.1 = Some m /\ m !! p.2 = Some c) (zip ds names) items.

(** What has to be scored for an observation of a relation read from a file: the same
    relation, the codes of its entities and the value its text denotes. *)
Definition scored_as (f : gmap string (gmap string Z)) (domains_of : string -> option (list string)) (rel : string)
    (x : list string * string) (ob : string * list Z * V) : Prop :=
  ob.1.1 = rel /\ (exists ds, domains_of rel = Some ds /\ coded f ds x.1 ob.1.2) /\ parse rel x.2 = Ok ob.2.
End SHeldout.
