(** What it means for a CRP object to hold a given seating. *)
From stdpp Require Import gmap.
From Coq Require Import ZArith Reals.
From Verif Require Import S_crp M_base M_crp M_domain.

(** All three public fields describe the seating [a]: the customer map is [a],
    [N] counts the customers, and the table map lists for every table exactly its
    customers, without empty tables. *)
Record holds_seating (c : crp) (a : seating) : Prop := {
  hs_assign : crp_assignments c = a;
  hs_N : crp_N c = Z.of_nat (size a);
  hs_tables : forall t, crp_tables c !! t =
    if decide (customers_at a t = ∅) then None else Some (customers_at a t);
}.

(** Performing a request on the CRP object. *)
Definition crp_do (c : crp) (o : seat_op) : outcome crp :=
  match o with
  | Seat i t => crp_incorporate c i t
  | Unseat i => crp_unincorporate c i
  end.

(** A domain object holds a seating when its entity set is exactly the set of
    seated customers and its CRP holds the seating. *)
Definition domain_holds (d : domain) (a : seating) : Prop :=
  dom_items d = dom a /\ holds_seating (dom_crp d) a.

(** Histories of a CRP object: requests interleaved with concentration
    resampling (with arbitrary random draws). *)
Inductive crp_event := Request (o : seat_op) | ResampleAlpha (r : rng).
Definition crp_event_do (lg : R -> R) (c : crp) (e : crp_event) : outcome crp :=
  match e with
  | Request o => crp_do c o
  | ResampleAlpha r => match crp_transition_alpha lg c r with
                       | Ok (c', _) => Ok c' | AssertFail => AssertFail | Throws => Throws
                       | Exits => Exits | UB => UB | OutOfFuel => OutOfFuel end
  end.
Definition crp_requests (es : list crp_event) : list seat_op :=
  omap (fun e => match e with Request o => Some o | ResampleAlpha _ => None end) es.

(** Seat customers one after the other, adding up the predictive log
    probabilities [CRP::logp] of their tables ([None]: some customer was put at a
    table of probability zero). *)
Fixpoint seat_scored (c : crp) (l : list (Z * Z)) : outcome (option R * crp) :=
  match l with
  | [] => Ok (Some 0%R, c)
  | (i, t) :: l' =>
    let* lp := crp_logp c t in
    let* c' := crp_incorporate c i t in
    let* (s, c'') := seat_scored c' l' in
    Ok (match lp, s with Some x, Some y => Some (x + y)%R | _, _ => None end, c'')
  end.

(** Calls on a domain object.  [DIncorporate i table r] with a negative table
    samples the table with the draws [r]. *)
Inductive dom_call :=
| DIncorporate (item table : Z) (r : rng)
| DUnincorporate (item : Z)
| DReassign (item table : Z).
Definition dom_do (d : domain) (o : dom_call) : outcome domain :=
  match o with
  | DIncorporate i t r => let* (d', _) := dom_incorporate d i t r in Ok d'
  | DUnincorporate i => dom_unincorporate d i
  | DReassign i t => dom_set_cluster d i t
  end.

(** What the user expects of each call, in terms of entity -> cluster maps. *)
Definition dom_call_effect (a a' : seating) (o : dom_call) : Prop :=
  match o with
  | DIncorporate i table _ =>
    match a !! i with
    | Some _ => a' = a
    | None => exists t, a' = <[i := t]> a /\ ((0 <= table)%Z -> t = table)
    end
  | DUnincorporate i => is_Some (a !! i) /\ a' = delete i a
  | DReassign i t => is_Some (a !! i) /\ a' = <[i := t]> a
  end.
