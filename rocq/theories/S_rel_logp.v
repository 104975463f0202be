(** Specification vocabulary for the probability a relation gives to a value. *)
From stdpp Require Import gmap strings.
From Coq Require Import ZArith Reals.
From Verif Require Import M_base M_dist M_relation S_math.

Section SRelLogp.
Context {V : Type} {D : Dist V}.

(** Probability of a value in the block of the clusters [z]: under the block's
    object if the block exists, else under a fresh object; [None] if the object
    cannot score the value. *)
Definition block_lik (rel : relation D) (z : list Z) (v : V) : option R :=
  match d_logp D (default (d_new D (r_spec rel) []).1 (r_clusters rel !! z)) v with
  | Ok lp => Some (eexp lp)
  | _ => None
  end.

(** Fresh objects do not depend on random draws. *)
Definition fresh_fixed (rel : relation D) : Prop := forall r r', (d_new D (r_spec rel) r).1 = (d_new D (r_spec rel) r').1.
End SRelLogp.
