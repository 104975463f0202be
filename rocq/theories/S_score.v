(** Specification vocabulary for the joint score of a model. *)
From stdpp Require Import gmap strings.
From Coq Require Import ZArith Reals.
From Verif Require Import M_base M_crp M_domain M_dist M_relation M_noisy M_irm M_hirm S_math S_crp S_dist S_relation S_logp S_hirm S_hirm_logp.

(** Probability that the next customer of a seating joins table [t] (Chinese restaurant process). *)
Definition seat_prob (alpha : R) (a : gmap Z Z) (t : Z) : R :=
  ((if decide (customers_at a t = ∅) then alpha else INR (size (customers_at a t))) / (INR (size a) + alpha))%R.
(** [seats alpha A l p A']: the entities [l], one after the other, are given clusters if they
    have none; [p] is the probability of the clusters they are given. *)
Inductive seats (alpha : string -> R) : clustering -> list (string * Z) -> R -> clustering -> Prop :=
| seats_nil A : seats alpha A [] 1%R A
| seats_known A d e l p A' : is_Some (seat A d e) -> seats alpha A l p A' -> seats alpha A ((d, e) :: l) p A'
| seats_new A d e t a l p A' : A !! d = Some a -> a !! e = None ->
    seats alpha (<[d := <[e := t]> a]> A) l p A' -> seats alpha A ((d, e) :: l) (seat_prob (alpha d) a t * p)%R A'.

(** Incorporating a value raises an object's score by the value's log probability. *)
Definition scores_predictively {V} (D : Dist V) : Prop := forall s l v s', dist_history D s l -> d_inc D s v = Ok s' ->
  exists lp, d_logp D s v = Ok (Some lp) /\ d_score D s' = (d_score D s + lp)%R.

Section SScore.
Context {V : Type}.
Definition alpha_of (W : world) (d : string) : R := from_option (fun dm => crp_alpha (dom_crp dm)) 0%R (W !! d).
(** Probability of a value under the object of its block, or under a fresh object. *)
Definition block_lik {X} (D : Dist X) (rel : relation D) (c : string -> Z -> option Z) (items : items_t) (x : X) : option R :=
  z ← mapM (fun p => c p.1 p.2) (zip (r_doms rel) items);
  match d_logp D (default (d_new D (r_spec rel) []).1 (r_clusters rel !! z)) x with
  | Ok lp => Some (eexp lp)
  | _ => None
  end.
(** Probability of an observation of any relation, given the clusters [c] of its entities: for
    a noisy relation, of the value together with the value of the base relation. *)
Definition value_lik (h : hirm V) (ir : irm V) (c : string -> Z -> option Z) (name : string) (items : items_t) (v : V) : option R :=
  match i_rels ir !! name with
  | Some (AClean D rel) => block_lik D rel c items v
  | Some (ANoisy n) =>
    ab ← hirm_lookup h (n_base n); bv ← any_data ab !! take (length (any_doms ab)) items;
    block_lik (em_dist (n_em n)) (n_rel n) c items (bv, v)
  | None => None
  end.
(** Objects for new blocks do not depend on random draws, and score as they predict. *)
Definition t_predictive (t : t_rel V) : Prop :=
  match t with
  | TClean _ _ D sp => (forall r r', (d_new D sp r).1 = (d_new D sp r').1) /\ scores_predictively D
  | TNoisy _ _ E sp _ => (forall r r', (d_new (em_dist E) sp r).1 = (d_new (em_dist E) sp r').1) /\ scores_predictively (em_dist E)
  end.
Definition hirm_positive (h : hirm V) : Prop := forall t ir d dm, h_irms h !! t = Some ir -> i_domains ir !! d = Some dm -> (0 < crp_alpha (dom_crp dm))%R.
End SScore.
