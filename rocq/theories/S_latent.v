(** Specification vocabulary for noisy relations over a base and for the transition of
    latent values. *)
From stdpp Require Import gmap strings list.
From Coq Require Import ZArith Reals.
From Verif Require Import M_base M_crp M_domain M_dist M_relation M_noisy S_relation S_irm.

(** The block objects [zs] are there, and have accumulated the observations [cur]
    (blocks without observations included). *)
Definition blocks_have {V} {D : Dist V} (L : lawful D) (hh : list Z -> law_hyp L) (g : items_t -> option (list Z))
    (zs : gset (list Z)) (cur : gmap items_t V) (cl : gmap (list Z) (d_state D)) : Prop :=
  forall z, cl !! z = if decide (z ∈ zs) then Some (law_of L (hh z) (values_in g cur z)) else None.

(** A distribution that takes every value in every state, and one that also gives back every value. *)
Definition accepts_all {V} (D : Dist V) : Prop := forall s v, exists s', d_inc D s v = Ok s'.
Definition returns_all {V} (D : Dist V) : Prop := forall s v, exists s', d_uninc D s v = Ok s'.

(** Every noisy observation is stored together with the value its base has now. *)
Definition in_step {V} (base : base_view V) (n : noisy V) : Prop :=
  forall items p, r_data (n_rel n) !! items = Some p ->
    n_data n !! items = Some p.2 /\ bv_data base !! take (bv_arity base) items = Some p.1.

(** The pairs a noisy relation should store once the base value of [bi] is [v]. *)
Definition pairs_at {V} (k : nat) (bi : items_t) (v : V) (pairs : gmap items_t (V * V)) : gmap items_t (V * V) :=
  map_imap (fun items p => Some (if decide (take k items = bi) then (v, p.2) else p)) pairs.

(** Operations on one block object. *)
Inductive block_op (V : Type) := BIn (v : V) | BOut (v : V).
Global Arguments BIn {V} v.
Global Arguments BOut {V} v.
Definition block_do {V} (D : Dist V) (c : d_state D) (op : block_op V) : outcome (d_state D) :=
  match op with BIn v => d_inc D c v | BOut v => d_uninc D c v end.

(** What the latent-value transition does to the block of the latent value, when its value
    was [old], the candidates are [cands] and [new] is chosen. *)
Definition latent_ops {V} (old : V) (cands : list V) (new : V) : list (block_op V) :=
  [BOut old] ++ (cands ≫= fun v => [BIn v; BOut old]) ++ [BIn new; BOut old; BIn new].
(** What it should do. *)
Definition latent_ops_expected {V} (old new : V) : list (block_op V) := [BOut old; BIn new].

(** ** Histories of one noisy relation *)

(** The calls that do not touch the observations. *)
Definition inference_call {V} {D : Dist V} (c : rel_call D) : Prop :=
  match c with RMove _ _ _ _ _ | RScore _ _ _ _ _ _ | RResample _ _ => True | _ => False end.

(** A noisy relation over a base, made from a declaration and driven by calls; the last
    argument is what the user has put in.  The base may change meanwhile, but keeps
    the values below the noisy observations. *)
Inductive noisy_reach {V} (E : Emis V) (sp : d_spec (em_dist E)) (ds : list string) (base : string) :
  world -> base_view V -> noisy V -> gmap items_t V -> Prop :=
| nr_new W A b n : world_holds W A -> Forall (fun d => d ∈ dom A) ds -> bv_arity b <= length ds ->
    noisy_new E sp ds base = Ok n -> noisy_reach E sp ds base W b n ∅
| nr_incorporate W b n data items v r W' n' r' : noisy_reach E sp ds base W b n data ->
    noisy_incorporate W n b items v r = Ok (W', n', r') -> noisy_reach E sp ds base W' b n' (<[items := v]> data)
| nr_sample W b n data items v r W' n' r' : noisy_reach E sp ds base W b n data ->
    noisy_sample_and_incorporate W n b items r = Ok (v, W', n', r') -> noisy_reach E sp ds base W' b n' (<[items := v]> data)
| nr_unincorporate W b n data items n' : noisy_reach E sp ds base W b n data ->
    noisy_unincorporate W n b items = Ok n' -> noisy_reach E sp ds base W b n' (delete items data)
| nr_base W b b' n data : noisy_reach E sp ds base W b n data -> bv_arity b' = bv_arity b ->
    (forall items, is_Some (data !! items) -> bv_data b' !! take (bv_arity b) items = bv_data b !! take (bv_arity b) items) ->
    noisy_reach E sp ds base W b' n data
| nr_infer W b n data (c : rel_call (em_dist (n_em n))) W' rel' : noisy_reach E sp ds base W b n data ->
    inference_call c -> rel_call_ok c -> rel_do (W, n_rel n) c = Ok (W', rel') ->
    noisy_reach E sp ds base W' b (n_set n (n_data n) (n_b2n n) rel') data.

(** A noisy relation that agrees with its data and is in step with the base [base]. *)
Definition noisy_over {V} (base : any_rel V) (W : world) (n : noisy V) : Prop := exists ar A,
  world_holds W A /\ any_holds ar A (ANoisy n) /\ ar (n_base n) = Some (length (any_doms base)) /\ in_step (view_of base) n.

(** Two states of a noisy relation that differ in the contents of their blocks only
    (and in index entries that list nothing). *)
Definition same_but_blocks {V} (n n' : noisy V) : Prop := exists idx rel,
  n' = n_set n (n_data n) idx rel /\
  (forall bi, default ∅ (idx !! bi) = default ∅ (n_b2n n !! bi)) /\
  r_doms rel = r_doms (n_rel n) /\ r_spec rel = r_spec (n_rel n) /\ r_data rel = r_data (n_rel n) /\ r_data_r rel = r_data_r (n_rel n) /\
  dom (r_clusters rel) = dom (r_clusters (n_rel n)).
