(** Specification vocabulary for relations: what the user-visible content of a
    relation is, and what it means for the object's fields to agree with it. *)
From stdpp Require Import gmap strings.
From Coq Require Import ZArith Reals.
From Verif Require Import M_base M_crp M_domain M_dist M_relation S_crp S_crp_state.

(** A distribution class is lawful when an object is determined by its
    hyperparameters and the multiset (list up to order) of values it has
    accumulated: [law_of h l].  Incorporating adds one occurrence, unincorporating
    an accumulated value takes one away, [N] tells whether there are any, [law_adm] are the values
    [incorporate] accepts.  An object without values scores 0. *)
Record lawful {V} (D : Dist V) := {
  law_hyp : Type;
  law_of : law_hyp -> list V -> d_state D;
  law_adm : V -> Prop;
  law_perm : forall h l l', l ≡ₚ l' -> law_of h l = law_of h l';
  law_inc : forall h l v s', Forall law_adm l ->
    (d_inc D (law_of h l) v = Ok s' <-> law_adm v /\ s' = law_of h (v :: l));
  law_uninc : forall h l v, Forall law_adm (v :: l) ->
    d_uninc D (law_of h (v :: l)) v = Ok (law_of h l);
  law_N_zero : forall h l, d_N_zero D (law_of h l) = bool_decide (length l = 0);
  law_N_pos : forall h l, d_N_pos D (law_of h l) = bool_decide (length l <> 0);
  law_new : forall sp r, exists h, (d_new D sp r).1 = law_of h [];
  law_resample : forall h l r s r', Forall law_adm l -> d_resample D (law_of h l) r = Ok (s, r') -> exists h', s = law_of h' l;
  law_score_empty : forall h, d_score D (law_of h []) = 0%R;
}.
Global Arguments law_hyp {V D} _.
Global Arguments law_of {V D} _ _ _.
Global Arguments law_adm {V D} _ _.

(** The clustering of all domains: domain -> entity -> cluster. *)
Notation clustering := (gmap string (gmap Z Z)).
Definition seat (A : clustering) (d : string) (e : Z) : option Z := A !! d ≫= lookup e.

(** Every domain object holds its part of the clustering. *)
Definition world_holds (W : world) (A : clustering) : Prop :=
  forall d, match W !! d, A !! d with
            | Some dm, Some a => domain_holds dm a
            | None, None => True
            | _, _ => False
            end.

(** The block an observation key belongs to: the clusters of its entities. *)
Definition block_of (A : clustering) (ds : list string) (items : items_t) : option (list Z) :=
  if decide (length items = length ds) then mapM (fun p => seat A p.1 p.2) (zip ds items) else None.

(** The observation [items] mentions entity [e] of domain [d]. *)
Definition mentions (ds : list string) (items : items_t) (d : string) (e : Z) : Prop :=
  (d, e) ∈ zip ds items.
Global Instance mentions_dec ds items d e : Decision (mentions ds items d e).
Proof. unfold mentions. apply _. Defined.
Definition observations_of {V} (ds : list string) (data : gmap items_t V) (d : string) (e : Z) : gset items_t :=
  filter (fun items => mentions ds items d e) (dom data).

(** The values of the observations that [g] puts in block [z]. *)
Definition values_in {V} (g : items_t -> option (list Z)) (data : gmap items_t V) (z : list Z) : list V :=
  (filter (fun p : items_t * V => g p.1 = Some z) (map_to_list data)).*2.

(** The block objects: there is one exactly for the blocks with observations,
    and it has accumulated exactly the values of these. *)
Definition blocks_hold {V} {D : Dist V} (L : lawful D) (hh : list Z -> law_hyp L)
    (g : items_t -> option (list Z)) (data : gmap items_t V) (clusters : gmap (list Z) (d_state D)) : Prop :=
  forall z, clusters !! z =
    match values_in g data z with
    | [] => None
    | v :: l => Some (law_of L (hh z) (v :: l))
    end.

(** The reverse index lists, for every entity of every domain of the relation,
    exactly the observations that mention it, without empty entries. *)
Definition index_holds {V} (ds : list string) (data : gmap items_t V)
    (idx : gmap string (gmap Z (gset items_t))) : Prop :=
  forall d, match idx !! d with
            | None => d ∉ ds
            | Some m => d ∈ ds /\ forall e, m !! e =
                if decide (observations_of ds data d e = ∅) then None
                else Some (observations_of ds data d e)
            end.

(** All fields of a relation agree with its data and the clustering [A]. *)
Record rel_holds {V} {D : Dist V} (L : lawful D) (A : clustering) (rel : relation D) : Prop := {
  rh_doms : forall d, d ∈ r_doms rel -> d ∈ dom A;
  rh_known : forall items v, r_data rel !! items = Some v ->
    is_Some (block_of A (r_doms rel) items) /\ law_adm L v;
  rh_index : index_holds (r_doms rel) (r_data rel) (r_data_r rel);
  rh_blocks : exists hh, blocks_hold L hh (block_of A (r_doms rel)) (r_data rel) (r_clusters rel);
}.

(** [A'] extends [A] by clusters for (some of) the entities in [P], nothing else. *)
Definition clustering_extends (A A' : clustering) (P : list (string * Z)) : Prop :=
  dom A' = dom A /\
  (forall d e t, seat A d e = Some t -> seat A' d e = Some t) /\
  (forall d e, is_Some (seat A' d e) -> is_Some (seat A d e) \/ (d, e) ∈ P).

(** One entity moved to another cluster. *)
Definition clustering_move (A : clustering) (d : string) (e t : Z) : clustering :=
  alter (fun a => <[e := t]> a) d A.

Definition order_ok (ord : set_order) : Prop := forall s, ord s ≡ₚ elements s.
Definition map_order_ok (mord : map_order) : Prop := forall m, mord m ≡ₚ map_to_list m.
Definition block_order_ok {V} {D : Dist V} (ord : gmap (list Z) (d_state D) -> list (list Z)) : Prop :=
  forall m, ord m ≡ₚ elements (dom m).

(** Calls on one relation with the domains it lives on. *)
Inductive rel_call {V} (D : Dist V) :=
| RIncorporate (items : items_t) (v : V) (r : rng)
| RUnincorporate (items : items_t)
| RUpdate (items : items_t) (v : V)
| RMove (ord : set_order) (d : string) (e t : Z) (r : rng)
| RScore (ord : set_order) (mord : map_order) (d : string) (e : Z) (ts : list Z) (r : rng)
| RResample (ord : gmap (list Z) (d_state D) -> list (list Z)) (r : rng).
Global Arguments RIncorporate {V D} _ _ _.
Global Arguments RUnincorporate {V D} _.
Global Arguments RUpdate {V D} _ _.
Global Arguments RMove {V D} _ _ _ _ _.
Global Arguments RScore {V D} _ _ _ _ _ _.
Global Arguments RResample {V D} _ _.

(** Performing a call.  [RMove] is the relation's reassignment followed by the
    domain's, as in IRM::set_cluster_assignment_gibbs (irm.cc:79-95). *)
Definition rel_do {V} {D : Dist V} (st : world * relation D) (o : rel_call D)
  : outcome (world * relation D) :=
  let '(W, rel) := st in
  match o with
  | RIncorporate items v r => let* (W', rel', _) := rel_incorporate D W rel items v r in Ok (W', rel')
  | RUnincorporate items => let* rel' := rel_unincorporate D W rel items in Ok (W, rel')
  | RUpdate items v => let* rel' := rel_update_value D W rel items v in Ok (W, rel')
  | RMove ord d e t r =>
    let* (rel', _) := rel_set_cluster D W rel ord d e t r in
    let* dm := deref W d in
    let* dm' := dom_set_cluster dm e t in
    Ok (<[d := dm']> W, rel')
  | RScore ord mord d e ts r =>
    let* (_, rel', _) := logp_gibbs_exact D W rel ord mord d e ts r in Ok (W, rel')
  | RResample ord r => let* (rel', _) := transition_cluster_hparams D rel ord r in Ok (W, rel')
  end.
Definition rel_call_ok {V} {D : Dist V} (o : rel_call D) : Prop :=
  match o with
  | RMove ord _ _ _ _ => order_ok ord
  | RScore ord mord _ _ _ _ => order_ok ord /\ map_order_ok mord
  | RResample ord _ => block_order_ok ord
  | _ => True
  end.

(** What the user expects of each call, on the stored data and the clustering. *)
Definition rel_call_effect {V} {D : Dist V} (ds : list string)
    (A A' : clustering) (data data' : gmap items_t V) (o : rel_call D) : Prop :=
  match o with
  | RIncorporate items v _ =>
    data !! items = None /\ data' = <[items := v]> data /\ clustering_extends A A' (zip ds items)
  | RUnincorporate items => is_Some (data !! items) /\ data' = delete items data /\ A' = A
  | RUpdate items v => is_Some (data !! items) /\ data' = <[items := v]> data /\ A' = A
  | RMove _ d e t _ => is_Some (seat A d e) /\ data' = data /\ A' = clustering_move A d e t
  | RScore _ _ _ _ _ _ => data' = data /\ A' = A
  | RResample _ _ => data' = data /\ A' = A
  end.

(** The stored observations a call should leave behind. *)
Definition rel_data_after {V} {D : Dist V} (data : gmap items_t V) (o : rel_call D) : gmap items_t V :=
  match o with
  | RIncorporate items v _ => <[items := v]> data
  | RUnincorporate items => delete items data
  | RUpdate items v => <[items := v]> data
  | _ => data
  end.

(** When a call is acceptable (hyperparameter transitions excepted: whether the
    sampler finds a usable grid point is up to the distribution). *)
Definition rel_call_legal {V} {D : Dist V} (L : lawful D) (ds : list string)
    (A : clustering) (data : gmap items_t V) (o : rel_call D) : Prop :=
  match o with
  | RIncorporate items v _ => length items = length ds /\ data !! items = None /\ law_adm L v
  | RUnincorporate items => is_Some (data !! items)
  | RUpdate items v => is_Some (data !! items) /\ law_adm L v
  | RMove _ d e t _ => d ∈ ds /\ observations_of ds data d e <> ∅ /\ seat A d e <> Some t
  | RScore _ _ d e _ _ => d ∈ ds /\ observations_of ds data d e <> ∅
  | RResample _ _ => True
  end.

(** Drawing a value leaves the distribution object as it is. *)
Definition sample_keeps {V} {D : Dist V} (L : lawful D) : Prop :=
  forall h l r v s r', Forall (law_adm L) l -> d_sample D (law_of L h l) r = Ok (v, s, r') -> s = law_of L h l.
