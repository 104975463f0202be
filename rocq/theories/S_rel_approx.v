(** Specification vocabulary for the approximate reassignment scores. *)
From stdpp Require Import gmap strings.
From Coq Require Import ZArith Reals.
From Verif Require Import M_base M_dist M_relation S_math S_relation.

(** Log probability of the value at [k], taken out of its block, given the rest of the block. *)
Definition own_logp {V} {D : Dist V} (A : clustering) (rel : relation D) (k : items_t) (lp : option R) : Prop :=
  exists v z c s, r_data rel !! k = Some v /\ block_of A (r_doms rel) k = Some z /\ r_clusters rel !! z = Some c /\
    d_uninc D c v = Ok s /\ d_logp D s v = Ok lp.
(** Log probability of the value at [k] given the block it would be in if entity [e] of domain [d] were in cluster [t]. *)
Definition moved_logp {V} {D : Dist V} (A : clustering) (rel : relation D) (d : string) (e t : Z) (k : items_t) (lp : option R) : Prop :=
  exists v z s, r_data rel !! k = Some v /\ block_of (clustering_move A d e t) (r_doms rel) k = Some z /\
    (r_clusters rel !! z = Some s \/ (r_clusters rel !! z = None /\ exists r, s = (d_new D (r_spec rel) r).1)) /\ d_logp D s v = Ok lp.
(** Sum of log probabilities; [None] is minus infinity. *)
Definition lp_sum (lps : list (option R)) : option R :=
  foldr (fun a b => match a, b with Some x, Some y => Some (x + y)%R | _, _ => None end) (Some 0%R) lps.
