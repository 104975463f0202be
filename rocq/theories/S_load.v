(** What loading a set of observations into a model must do to its data. *)
From Coq Require Import String Ascii.
From stdpp Require Import gmap strings list.
From Coq Require Import ZArith.
From Verif Require Import M_base M_dist M_crp M_domain M_relation M_noisy M_irm M_hirm M_text M_io.
Local Open Scope nat_scope.

Section Load.
Context {V : Type} (parse : string -> string -> outcome V).
Context (obs : encoded) (base : string -> option string) (arity : string -> nat).

(** The tuples an unobserved relation must have values for: the leading entities of every
    tuple of the relations built on it.  [arity n] is the number of domains of the base of [n]. *)
Inductive needed : string -> items_t -> Prop :=
| needed_observed n b l items v : base n = Some b -> obs !! n = Some l -> (items, v) ∈ l -> needed b (take (arity n) items)
| needed_latent n b items : base n = Some b -> obs !! n = None -> needed n items -> needed b (take (arity n) items).

(** The data of relation [n] before and after: an observed relation gets exactly its
    observations, each once and each new; an unobserved one keeps its values and gets a value
    for exactly the needed tuples; a relation that is neither keeps its data. *)
Definition loaded (n : string) (before after : option (gmap items_t V)) : Prop :=
  match obs !! n with
  | Some l => exists d vs, before = Some d /\ after = Some (list_to_map (zip (map fst l) vs) ∪ d) /\
      Forall2 (fun x v => parse n x.2 = Ok v) l vs /\ NoDup (map fst l) /\ Forall (fun x => d !! x.1 = None) l
  | None =>
    match before with
    | None => after = None
    | Some d => exists d', after = Some d' /\ d ⊆ d' /\
        forall items, is_Some (d' !! items) <-> is_Some (d !! items) \/ needed n items
    end
  end.
End Load.
