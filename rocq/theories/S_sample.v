(** What sampling from a HIRM must do. *)
From stdpp Require Import gmap strings list relations.
From Coq Require Import ZArith Reals.
From Verif Require Import M_base M_crp M_domain M_dist M_relation M_noisy M_irm M_hirm S_crp S_crp_state S_irm S_hirm.

Section SSample.
Context {V : Type}.

(** The tuple of its base that a tuple of a noisy relation is paired with: the leading entities. *)
Definition base_step (schema : gmap string (t_rel V)) (x y : string * items_t) : Prop :=
  exists t tb, schema !! x.1 = Some t /\ t_base t = Some y.1 /\ schema !! y.1 = Some tb /\ y.2 = take (length (t_domains tb)) x.2.
(** The tuple itself, the tuple of its base, that of its base's base, and so on. *)
Definition chain (schema : gmap string (t_rel V)) : string * items_t -> string * items_t -> Prop := rtc (base_step schema).

(** No relation is built on it. *)
Definition leaf (schema : gmap string (t_rel V)) (name : string) : Prop :=
  is_Some (schema !! name) /\ forall n t, schema !! n = Some t -> t_base t <> Some name.

(** [h'] is [h] after incorporating the observations one after the other. *)
Inductive incorporates : hirm V -> list (string * items_t * V) -> hirm V -> Prop :=
| inc_nil h : incorporates h [] h
| inc_cons h n l v r h1 r1 xs h' : hirm_incorporate h n l v r = Ok (h1, r1) -> incorporates h1 xs h' -> incorporates h ((n, l, v) :: xs) h'.

(** The value a relation has for a tuple. *)
Definition datum (h : hirm V) (n : string) (l : items_t) : option V := hirm_data h !! n ≫= lookup l.

(** Entity [e] is in domain [d] of a cluster of relations; somewhere in the model. *)
Definition irm_has (ir : irm V) (d : string) (e : Z) : Prop :=
  exists dm, i_domains ir !! d = Some dm /\ e ∈ dom (crp_assignments (dom_crp dm)).
Definition known (h : hirm V) (d : string) (e : Z) : Prop := exists t ir, h_irms h !! t = Some ir /\ irm_has ir d e.

Global Instance irm_has_dec ir d e : Decision (irm_has ir d e).
Proof.
  destruct (i_domains ir !! d) as [dm|] eqn:E.
  - destruct (decide (e ∈ dom (crp_assignments (dom_crp dm)))) as [H|H]; [left; by exists dm|right]. intros (dm' & E' & H'). congruence.
  - right. intros (dm' & E' & _). congruence.
Defined.
(** In how many clusters of relations the entity is known. *)
Definition clusters_with (h : hirm V) (d : string) (e : Z) : nat :=
  length (filter (fun p : Z * irm V => irm_has p.2 d e) (map_to_list (h_irms h))).
(** The popularity of the entities: domain [d] seats customers 0, 1, ..., and [f d e] of them at [e]. *)
Definition popular (m : gmap string crp) (f : string -> Z -> nat) : Prop :=
  forall d, exists a, holds_seating (default crp_new (m !! d)) a /\ (forall i, is_Some (a !! i) <-> (0 <= i < Z.of_nat (size a))%Z) /\
    forall e, size (customers_at a e) = f d e.
(** How often the pair is in the list. *)
Definition times (x : string * Z) (l : list (string * Z)) : nat := length (filter (fun y => y = x) l).
End SSample.
