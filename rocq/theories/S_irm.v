(** Specification vocabulary for noisy relations and the IRM: what its
    user-visible content is, and what it means for its fields to agree with it. *)
From stdpp Require Import gmap strings.
From Coq Require Import ZArith Reals.
From Verif Require Import M_base M_crp M_domain M_dist M_relation M_noisy M_irm S_crp S_crp_state S_dist S_relation.

Definition orders_ok (o : orders) : Prop :=
  (forall s, o_vecs o s ≡ₚ elements s) /\ (forall m, o_groups o m ≡ₚ map_to_list m) /\
  (forall s, o_names o s ≡ₚ elements s) /\ (forall s, o_ents o s ≡ₚ elements s).

Section SIrm.
Context {V : Type}.

(** The relation a noisy relation is built on. *)
Definition any_base (a : any_rel V) : option string :=
  match a with AClean _ _ => None | ANoisy n => Some (n_base n) end.
Definition t_base (t : t_rel V) : option string :=
  match t with TClean _ _ _ _ => None | TNoisy _ _ _ _ b => Some b end.

(** The declaration a relation object was made from. *)
Definition any_type (a : any_rel V) (observed : bool) : t_rel V :=
  match a with
  | AClean D rel => TClean (r_doms rel) observed D (r_spec rel)
  | ANoisy n => TNoisy (r_doms (n_rel n)) observed (n_em n) (r_spec (n_rel n)) (n_base n)
  end.

(** The index from base observations to noisy observations: an observation is
    listed under its first [k] entities, [k] the number of domains of the base. *)
Definition base_index_holds (k : nat) (data : gmap items_t V) (m : gmap items_t (gset items_t)) : Prop :=
  forall bi items, items ∈ default ∅ (m !! bi) <-> is_Some (data !! items) /\ take k items = bi.

(** A law for the objects of a distribution class that speaks only of objects that
    creation and later calls can produce. *)
Record rlawful {W} (D : Dist W) := {
  rl_law :> lawful D;
  rl_reached : forall h, dist_history D (law_of rl_law h []) [];
}.

(** All fields of a relation of either kind agree with its data and the
    clustering; [ar] tells the number of domains of each relation by name.  The
    emission relation of a noisy relation stores pairs (base value, noisy value). *)
Definition any_holds (ar : string -> option nat) (A : clustering) (a : any_rel V) : Prop :=
  match a with
  | AClean D rel => exists L : rlawful D, rel_holds L A rel
  | ANoisy n =>
    (exists L : rlawful (em_dist (n_em n)), rel_holds L A (n_rel n)) /\
    n_data n = snd <$> r_data (n_rel n) /\
    exists k, ar (n_base n) = Some k /\ k <= length (r_doms (n_rel n)) /\
      base_index_holds k (n_data n) (n_b2n n)
  end.

(** Some stored observation of the relation mentions entity [e] of domain [d]. *)
Definition any_mentions (a : any_rel V) (d : string) (e : Z) : Prop :=
  exists items, is_Some (any_data a !! items) /\ mentions (any_doms a) items d e.

(** Number of domains by name. *)
Definition arity (rels : gmap string (any_rel V)) (name : string) : option nat :=
  (fun a => length (any_doms a)) <$> rels !! name.

(** All fields of an IRM agree with each other and the clustering [A]. *)
Record irm_holds (ar : string -> option nat) (ir : irm V) (A : clustering) : Prop := {
  ih_world : world_holds (i_domains ir) A;
  ih_rels : forall name a, i_rels ir !! name = Some a -> any_holds ar A a;
  ih_arity : forall name a, i_rels ir !! name = Some a -> ar name = Some (length (any_doms a));
  ih_schema : forall name, match i_schema ir !! name, i_rels ir !! name with
    | Some t, Some a => t = any_type a (t_observed t)
    | None, None => True
    | _, _ => False
    end;
  ih_used : forall d, d ∈ dom A <-> exists name a, i_rels ir !! name = Some a /\ d ∈ any_doms a;
  ih_d2r : forall d, match i_d2r ir !! d with
    | Some s => d ∈ dom A /\ forall name, name ∈ s <-> exists a, i_rels ir !! name = Some a /\ d ∈ any_doms a
    | None => d ∉ dom A
    end;
}.

(** An entity is in a domain exactly when some observation of some relation mentions it there. *)
Definition irm_tight (ir : irm V) (A : clustering) : Prop :=
  forall d e, is_Some (seat A d e) <-> exists name a, i_rels ir !! name = Some a /\ any_mentions a d e.

(** The stored observations, by relation. *)
Definition irm_data (ir : irm V) : gmap string (gmap items_t V) := any_data <$> i_rels ir.
(** The declared type of the relations: domains, distribution or emission, base. *)
Definition irm_shape (ir : irm V) : gmap string (t_rel V) := (fun a => any_type a true) <$> i_rels ir.

(** The same entities in every domain (their clusters may differ). *)
Definition same_entities (A A' : clustering) : Prop :=
  dom A' = dom A /\ forall d e, is_Some (seat A' d e) <-> is_Some (seat A d e).

(** Calls on an IRM. *)
Inductive irm_call :=
| IIncorporate (name : string) (items : items_t) (v : V) (r : rng)
| IUnincorporate (o : orders) (name : string) (items : items_t)
| ITransitionItem (o : orders) (d : string) (e : Z) (r : rng)
| ITransition (o : orders) (ds : list string) (r : rng)
| ITransitionAll (o : orders) (r : rng)
| IStep (lg : R -> R) (o : orders) (r : rng).

Definition irm_do (ir : irm V) (c : irm_call) : outcome (irm V) :=
  match c with
  | IIncorporate name items v r => let* (ir', _) := irm_incorporate (irm_lookup ir) ir name items v r in Ok ir'
  | IUnincorporate o name items => irm_unincorporate (irm_lookup ir) o ir name items
  | ITransitionItem o d e r => let* (ir', _) := irm_transition_item o ir d e r in Ok ir'
  | ITransition o ds r => let* (ir', _) := irm_transition o ir ds r in Ok ir'
  | ITransitionAll o r => let* (ir', _) := irm_transition_all o ir r in Ok ir'
  | IStep lg o r => let* (ir', _) := irm_single_step lg o ir false r in Ok ir'
  end.
Definition irm_call_ok (c : irm_call) : Prop :=
  match c with
  | IIncorporate _ _ _ _ => True
  | IUnincorporate o _ _ | ITransitionItem o _ _ _ | ITransition o _ _ | ITransitionAll o _ | IStep _ o _ => orders_ok o
  end.

(** The observations a call should leave behind. *)
Definition irm_data_after (data : gmap string (gmap items_t V)) (c : irm_call) : gmap string (gmap items_t V) :=
  match c with
  | IIncorporate name items v _ => alter (fun m => <[items := v]> m) name data
  | IUnincorporate _ name items => alter (fun m => delete items m) name data
  | _ => data
  end.

(** What a call may do to the clustering: incorporating seats unseen entities of the
    observation, unincorporating drops entities of the observation, inference moves
    entities; clusters of the other entities stay. *)
Definition irm_clustering_after (ds : string -> list string) (A A' : clustering) (c : irm_call) : Prop :=
  match c with
  | IIncorporate name items _ _ =>
    dom A' = dom A /\ (forall d e t, seat A d e = Some t -> seat A' d e = Some t) /\
    forall d e, is_Some (seat A' d e) <-> is_Some (seat A d e) \/ mentions (ds name) items d e
  | IUnincorporate _ name items =>
    dom A' = dom A /\ (forall d e t, seat A' d e = Some t -> seat A d e = Some t) /\
    forall d e, ~ mentions (ds name) items d e -> seat A' d e = seat A d e
  | ITransitionItem _ d e _ =>
    same_entities A A' /\ forall d' e', (d', e') <> (d, e) -> seat A' d' e' = seat A d' e'
  | ITransition _ lst _ =>
    same_entities A A' /\ forall d e, d ∉ lst -> seat A' d e = seat A d e
  | ITransitionAll _ _ | IStep _ _ _ => same_entities A A'
  end.
End SIrm.
Global Arguments irm_call V : clear implicits.

(** The entity is in the domain's entity set. *)
Definition in_domain {V} (ir : irm V) (d : string) (e : Z) : Prop :=
  exists dm, i_domains ir !! d = Some dm /\ e ∈ dom_items dm.
(** Some observation in [data] mentions entity [e] of domain [d]. *)
Definition data_mentions {V} (schema : gmap string (t_rel V)) (data : gmap string (gmap items_t V)) (d : string) (e : Z) : Prop :=
  exists name t m items, schema !! name = Some t /\ data !! name = Some m /\ is_Some (m !! items) /\
    mentions (t_domains t) items d e.
(** Nothing observed yet. *)
Definition no_data {V} (schema : gmap string (t_rel V)) : gmap string (gmap items_t V) := (fun _ => ∅) <$> schema.
(** A freshly made object incorporates the value. *)
Definition accepts {V} (D : Dist V) (sp : d_spec D) (v : V) : Prop :=
  exists r s', d_inc D (d_new D sp r).1 v = Ok s'.
(** The relation declared as [t] can be given the value at [items]: its distribution
    accepts the value; a noisy relation needs the value of its base at the first
    entities of [items]. *)
Definition t_accepts {V} (schema : gmap string (t_rel V)) (data : gmap string (gmap items_t V)) (t : t_rel V)
    (items : items_t) (v : V) : Prop :=
  match t with
  | TClean _ _ D sp => accepts D sp v
  | TNoisy _ _ E sp base => exists tb m bv, schema !! base = Some tb /\ data !! base = Some m /\
      m !! take (length (t_domains tb)) items = Some bv /\ accepts (em_dist E) sp (bv, v)
  end.

(** Names in the strict order of [std::string]. *)
Definition str_lt (a b : string) : Prop := str_le a b /\ a <> b.

(** The distribution of the declared relation is lawful. *)
Definition t_lawful {V} (t : t_rel V) : Prop :=
  match t with
  | TClean _ _ D _ => exists L : lawful D, True
  | TNoisy _ _ E _ _ => exists L : lawful (em_dist E), True
  end.
(** Every distribution is lawful and a noisy relation has at least the domains of its base. *)
Definition schema_lawful {V} (schema : gmap string (t_rel V)) : Prop :=
  forall name t, schema !! name = Some t -> t_lawful t /\
    forall b tb, t_base t = Some b -> schema !! b = Some tb -> length (t_domains tb) <= length (t_domains t).
Definition schema_arity {V} (schema : gmap string (t_rel V)) (name : string) : option nat :=
  (fun t => length (t_domains t)) <$> schema !! name.

(** A relation for which the score change of a move is determined: no domain is
    repeated and objects for new blocks do not depend on the random draws. *)
Definition any_determined {V} (a : any_rel V) : Prop :=
  NoDup (any_doms a) /\
  match a with
  | AClean D rel => forall r r', (d_new D (r_spec rel) r).1 = (d_new D (r_spec rel) r').1
  | ANoisy n => forall r r', (d_new (em_dist (n_em n)) (r_spec (n_rel n)) r).1 = (d_new (em_dist (n_em n)) (r_spec (n_rel n)) r').1
  end.
Definition t_determined {V} (t : t_rel V) : Prop :=
  NoDup (t_domains t) /\
  match t with
  | TClean _ _ D sp => forall r r', (d_new D sp r).1 = (d_new D sp r').1
  | TNoisy _ _ E sp _ => forall r r', (d_new (em_dist E) sp r).1 = (d_new (em_dist E) sp r').1
  end.
