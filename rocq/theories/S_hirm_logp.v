(** Specification vocabulary for the probability a HIRM gives to observations. *)
From stdpp Require Import gmap strings.
From Coq Require Import ZArith Reals.
From Verif Require Import M_base M_crp M_domain M_dist M_relation M_noisy M_irm M_hirm S_math S_crp S_relation S_logp S_hirm.

Section SHirmLogp.
Context {V : Type}.
Notation observation := (string * items_t * V)%type.

(** The cluster of an entity in an IRM. *)
Definition entity_cluster (ir : irm V) (d : string) (e : Z) : option Z :=
  dm ← i_domains ir !! d; crp_assignments (dom_crp dm) !! e.
(** The observation's relation is in cluster [t] of relations. *)
Definition in_cluster (h : hirm V) (t : Z) (ob : observation) : Prop := table_of h ob.1.1 = Some t.
Global Instance in_cluster_dec h t ob : Decision (in_cluster h t ob).
Proof. unfold in_cluster. apply _. Defined.
(** Probability of one observation given the present clusters: under the IRM of its relation's cluster. *)
Definition hirm_lik (h : hirm V) (ob : observation) : option R :=
  t ← table_of h ob.1.1; ir ← h_irms h !! t; observation_lik ir (entity_cluster ir) ob.
(** Concentrations are positive and objects for new blocks do not depend on random draws. *)
Definition hirm_scorable (h : hirm V) : Prop :=
  forall t ir, h_irms h !! t = Some ir ->
    (forall d dm, i_domains ir !! d = Some dm -> (0 < crp_alpha (dom_crp dm))%R) /\ all_fresh_determined ir.
End SHirmLogp.
