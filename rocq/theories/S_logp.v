(** Specification vocabulary for the predictive probability of new observations. *)
From stdpp Require Import gmap strings.
From Coq Require Import ZArith Reals.
From Verif Require Import M_base M_crp M_domain M_dist M_relation M_noisy M_irm S_math S_crp S_relation.

Definition Rprod (l : list R) : R := foldr Rmult 1%R l.

(** The clusters an entity can have, with their probabilities: an entity with a
    cluster keeps it; a new entity of a domain with entities joins a cluster with
    probability proportional to its size or opens one new cluster with probability
    proportional to [alpha] (Chinese restaurant process); for a domain without
    entities the code offers cluster 0 with weight [1/alpha]. *)
Definition cluster_options (alpha : R) (a : gmap Z Z) (e : Z) (l : list (Z * R)) : Prop :=
  match a !! e with
  | Some t => l = [(t, 1%R)]
  | None =>
    NoDup l.*1 /\
    if decide (a = ∅) then l = [(0%Z, / alpha)%R]
    else exists tnew, customers_at a tnew = ∅ /\
      forall t p, (t, p) ∈ l <->
        (customers_at a t <> ∅ /\ p = INR (size (customers_at a t)) / (INR (size a) + alpha))%R \/
        (t = tnew /\ p = alpha / (INR (size a) + alpha))%R
  end.

Section SLogp.
Context {V : Type}.
Notation observation := (string * items_t * V)%type.

(** Probability of one observation of a clean relation when its entities have the
    clusters [c]: under the block's object if the block has data, else under a
    fresh object; [None] if the value cannot be scored. *)
Definition observation_lik (ir : irm V) (c : string -> Z -> option Z) (ob : observation) : option R :=
  let '(name, items, v) := ob in
  match i_rels ir !! name with
  | Some (AClean D rel) =>
    match mapM (fun p => c p.1 p.2) (zip (r_doms rel) items) with
    | Some z =>
      match d_logp D (default (d_new D (r_spec rel) []).1 (r_clusters rel !! z)) v with
      | Ok lp => Some (eexp lp)
      | _ => None
      end
    | None => None
    end
  | _ => None
  end.

(** The clusters given by a choice [ch] for the entities [ents]. *)
Definition picked (ents : list (string * Z)) (ch : list (Z * R)) (d : string) (e : Z) : option Z :=
  (list_to_map (zip ents ch.*1) : gmap (string * Z) Z) !! (d, e).

(** The observation mentions the entity. *)
Definition observation_mentions (ir : irm V) (ob : observation) (d : string) (e : Z) : Prop :=
  exists a, i_rels ir !! ob.1.1 = Some a /\ mentions (any_doms a) ob.1.2 d e.

(** Objects for new blocks do not depend on random draws. *)
Definition fresh_determined (a : any_rel V) : Prop :=
  match a with
  | AClean D rel => forall r r', (d_new D (r_spec rel) r).1 = (d_new D (r_spec rel) r').1
  | ANoisy n => True
  end.
Definition all_fresh_determined (ir : irm V) : Prop := forall name a, i_rels ir !! name = Some a -> fresh_determined a.

(** The relation exists and the number of entities is right. *)
Definition observation_shape (ir : irm V) (ob : observation) : Prop :=
  exists a, i_rels ir !! ob.1.1 = Some a /\ length ob.1.2 = length (any_doms a).

(** Probability of all observations given the clusters of the entities. *)
Definition joint_lik (ir : irm V) (c : string -> Z -> option Z) (obs : list observation) : R :=
  Rprod ((fun ob => default 0%R (observation_lik ir c ob)) <$> obs).
End SLogp.
