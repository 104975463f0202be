(** Vocabulary for emissions: histories, and the values observed for a clean value. *)
From Coq Require Import ZArith Reals.
From stdpp Require Import list.
From Verif Require Import M_base M_dist M_emissions.
Local Open Scope R_scope.

(** [emission_history B s l]: the emission [s] was created and then went through some sequence
    of incorporate, unincorporate (of pairs currently in it) and transitions; [l] are the pairs
    of a clean and an observed value in it now. *)
Inductive emission_history {V} (B : WEmis V) : we_state B -> list (V * V) -> Prop :=
| eh_new : emission_history B (we_new B) []
| eh_inc s l x s' : emission_history B s l -> we_inc B s x 1 = Ok s' -> emission_history B s' (x :: l)
| eh_uninc s l x l' s' : emission_history B s l -> l ≡ₚ x :: l' -> we_inc B s x (-1) = Ok s' -> emission_history B s' l'
| eh_trans s l r s' r' : emission_history B s l -> we_trans B s r = Ok (s', r') -> emission_history B s' l.

(** The values observed for the clean value [c]. *)
Definition observed_for {V} `{EqDecision V} (c : V) (l : list (V * V)) : list V := snd <$> filter (fun x => x.1 = c) l.
