(** Model of cxx/emissions/base.hh, cxx/noisy_relation.hh, the relation variant of
    cxx/irm.hh:15-18, and cxx/transition_latent_value.hh. *)
From stdpp Require Import gmap strings.
From Coq Require Import ZArith Reals.
From Verif Require Import M_base M_math M_crp M_domain M_dist M_relation.

(** emissions/base.hh:9-25: an emission is a distribution over pairs (clean, noisy)
    with two more methods.  [V] is the C++ variant of all value types
    (observations.hh [ObservationVariant]); a value of the wrong alternative makes
    [d_inc] throw, as [std::get] does (the exception is raised a little later in the
    model than in the code, after the state that is then lost has been changed). *)
Record Emis (V : Type) := MkEmis {
  em_dist : Dist (V * V);
  em_corrupt : d_state em_dist -> V -> rng -> outcome (V * rng);        (* :18 sample_corrupted *)
  em_propose : d_state em_dist -> list V -> rng -> outcome (V * rng);   (* :22 propose_clean *)
}.
Global Arguments em_dist {V} _.
Global Arguments em_corrupt {V} _ _ _ _.
Global Arguments em_propose {V} _ _ _ _.

(** Iteration orders of the hash containers, as far as the code depends on them:
    over sets of int vectors (observation keys, block keys), of groups of
    observations, of names and of entities.  One function per element type stands
    for all containers during one call; theorems quantify over all of them. *)
Record orders := Orders {
  o_vecs : gset (list Z) -> list (list Z);
  o_groups : map_order;
  o_names : gset string -> list string;
  o_ents : gset Z -> list Z;
}.

Section Noisy.
Context {V : Type}.

(** noisy_relation.hh:37-57.  The pointer to the base relation is the name of that
    relation: relation names are unique among the relations alive in one model, and
    hirm.cc:183-197 [update_base_relation] keeps the pointers in step when the base
    moves to another IRM.  [domains] is the list kept by the emission relation. *)
Record noisy := Noisy {
  n_em : Emis V;
  n_data : gmap items_t V;                       (* :46 *)
  n_base : string;                               (* :48 *)
  n_b2n : gmap items_t (gset items_t);           (* :50-51 *)
  n_rel : relation (em_dist n_em);               (* :53 *)
}.
Definition n_set (n : noisy) (data : gmap items_t V) (b2n : gmap items_t (gset items_t))
    (rel : relation (em_dist (n_em n))) : noisy := Noisy (n_em n) data (n_base n) b2n rel.

(** noisy_relation.hh:55-61 constructor. *)
Definition noisy_new (E : Emis V) (spec : d_spec (em_dist E)) (doms : list string) (base : string)
  : outcome noisy :=
  let* rel := rel_new (em_dist E) doms spec in
  Ok (Noisy E ∅ base ∅ rel).

(** What a noisy relation reads of its base: the number of its domains and its data. *)
Record base_view := BaseView { bv_arity : nat; bv_data : gmap items_t V }.

(** noisy_relation.hh:181-185 [get_base_items]; an iterator past the end is undefined. *)
Definition get_base_items (b : base_view) (items : items_t) : outcome items_t :=
  if bool_decide (bv_arity b <= length items) then Ok (take (bv_arity b) items) else UB.

(** [base_relation->get_value(base_items)]: clean_relation.hh:489-492 or
    noisy_relation.hh:152-155. *)
Definition base_get_value (b : base_view) (base_items : items_t) : outcome V :=
  let* _ := assert_ (bool_decide (base_items ∈ dom (bv_data b))) in
  at_ (bv_data b !! base_items).

(** noisy_relation.hh:187-190 [get_base_value]. *)
Definition get_base_value (b : base_view) (items : items_t) : outcome V :=
  let* bi := get_base_items b items in base_get_value b bi.

(** [base_to_noisy_items[base_items].insert(items)]. *)
Definition b2n_insert (m : gmap items_t (gset items_t)) (bi items : items_t) : gmap items_t (gset items_t) :=
  <[bi := {[items]} ∪ default ∅ (m !! bi)]> m.

(** noisy_relation.hh:63-69 [incorporate]. *)
Definition noisy_incorporate (W : world) (n : noisy) (b : base_view) (items : items_t) (v : V) (r : rng)
  : outcome (world * noisy * rng) :=
  let* bi := get_base_items b items in
  let* bv := base_get_value b bi in
  let* (W', rel, r') := rel_incorporate (em_dist (n_em n)) W (n_rel n) items (bv, v) r in
  Ok (W', n_set n (<[items := v]> (n_data n)) (b2n_insert (n_b2n n) bi items) rel, r').

(** noisy_relation.hh:237-251 [sample_at_items]. *)
Definition noisy_sample_at_items (W : world) (n : noisy) (b : base_view) (items : items_t) (r : rng)
  : outcome (V * rng) :=
  let* bv := get_base_value b items in
  let* c := clusters_contains (em_dist (n_em n)) W (n_rel n) items in
  if c then
    let* z := get_cluster_assignment (em_dist (n_em n)) W (n_rel n) items in
    let* cl := at_ (r_clusters (n_rel n) !! z) in
    em_corrupt (n_em n) cl bv r
  else
    let '(cl, r1) := make_new_distribution (em_dist (n_em n)) (n_rel n) r in
    em_corrupt (n_em n) cl bv r1.

(** noisy_relation.hh:71-83 [sample_and_incorporate]. *)
Definition noisy_sample_and_incorporate (W : world) (n : noisy) (b : base_view) (items : items_t) (r : rng)
  : outcome (V * world * noisy * rng) :=
  let* (W', rel, z, r1) := incorporate_items (em_dist (n_em n)) W (n_rel n) items r in
  let n := n_set n (n_data n) (n_b2n n) rel in
  let* bv := get_base_value b items in
  let* bi := get_base_items b items in
  let* (v, r2) := noisy_sample_at_items W' n b items r1 in
  let* c := at_ (r_clusters (n_rel n) !! z) in
  let* c' := d_inc (em_dist (n_em n)) c (bv, v) in
  let rel := set_clusters _ (n_rel n) (<[z := c']> (r_clusters (n_rel n))) in
  let rel := set_data _ rel (<[items := (bv, v)]> (r_data rel)) in
  Ok (v, W', n_set n (<[items := v]> (n_data n)) (b2n_insert (n_b2n n) bi items) rel, r2).

(** noisy_relation.hh:91-95 [incorporate_to_cluster]. *)
Definition noisy_incorporate_to_cluster (W : world) (n : noisy) (b : base_view) (items : items_t) (v : V)
  : outcome noisy :=
  let* bv := get_base_value b items in
  let* rel := incorporate_to_cluster (em_dist (n_em n)) W (n_rel n) items (bv, v) in
  Ok (n_set n (n_data n) (n_b2n n) rel).

(** noisy_relation.hh:97-103 [cleanup_base_to_noisy]. *)
Definition cleanup_base_to_noisy (m : gmap items_t (gset items_t)) (b : base_view) (items : items_t)
  : outcome (gmap items_t (gset items_t)) :=
  let* bi := get_base_items b items in
  let* s := at_ (m !! bi) in
  let s' := s ∖ {[items]} in
  Ok (if bool_decide (s' = ∅) then delete bi m else <[bi := s']> m).

(** noisy_relation.hh:105-109 [cleanup_data]. *)
Definition noisy_cleanup_data (n : noisy) (b : base_view) (items : items_t) : outcome noisy :=
  let* rel := cleanup_data (em_dist (n_em n)) (n_rel n) items in
  let* m := cleanup_base_to_noisy (n_b2n n) b items in
  Ok (n_set n (delete items (n_data n)) m rel).

(** noisy_relation.hh:111 [cleanup_clusters]. *)
Definition noisy_cleanup_clusters (n : noisy) : noisy :=
  n_set n (n_data n) (n_b2n n) (cleanup_clusters (em_dist (n_em n)) (n_rel n)).

(** noisy_relation.hh:113-115 [unincorporate_from_cluster]. *)
Definition noisy_unincorporate_from_cluster (W : world) (n : noisy) (items : items_t) : outcome noisy :=
  let* rel := unincorporate_from_cluster (em_dist (n_em n)) W (n_rel n) items in
  Ok (n_set n (n_data n) (n_b2n n) rel).

(** noisy_relation.hh:117-122 [unincorporate]. *)
Definition noisy_unincorporate (W : world) (n : noisy) (b : base_view) (items : items_t) : outcome noisy :=
  let* _ := assert_ (bool_decide (items ∈ dom (n_data n))) in
  let* rel := rel_unincorporate (em_dist (n_em n)) W (n_rel n) items in
  let* m := cleanup_base_to_noisy (n_b2n n) b items in
  Ok (n_set n (delete items (n_data n)) m rel).

(** noisy_relation.hh:152-155 [get_value]. *)
Definition noisy_get_value (n : noisy) (items : items_t) : outcome V :=
  let* _ := assert_ (bool_decide (items ∈ dom (n_data n))) in
  at_ (n_data n !! items).

(** noisy_relation.hh:171-176 [update_value]: the pair handed to the emission
    relation is (new value, base value), in this order. *)
Definition noisy_update_value (W : world) (n : noisy) (b : base_view) (items : items_t) (v : V) : outcome noisy :=
  let* _ := assert_ (bool_decide (items ∈ dom (n_data n))) in
  let* bv := get_base_value b items in
  let* rel := rel_update_value (em_dist (n_em n)) W (n_rel n) items (v, bv) in
  Ok (n_set n (<[items := v]> (n_data n)) (n_b2n n) rel).

(** irm.hh:15-18: a relation of either kind. *)
Inductive any_rel :=
| AClean (D : Dist V) (rel : relation D)
| ANoisy (n : noisy).

(** clean_relation.hh:487, noisy_relation.hh:178 [get_domains]. *)
Definition any_doms (a : any_rel) : list string :=
  match a with AClean D rel => r_doms rel | ANoisy n => r_doms (n_rel n) end.
(** clean_relation.hh:500, noisy_relation.hh:157 [get_data]. *)
Definition any_data (a : any_rel) : gmap items_t V :=
  match a with AClean D rel => r_data rel | ANoisy n => n_data n end.
Definition view_of (a : any_rel) : base_view := BaseView (length (any_doms a)) (any_data a).

(** Following the pointer [base_relation]; [lk] finds the live relation of a name. *)
Definition base_of (lk : string -> option any_rel) (n : noisy) : outcome base_view :=
  let* a := idx_ (lk (n_base n)) in Ok (view_of a).

(** The virtual methods of relation.hh:19-147 on either kind.
    clean_relation.hh:106-110, noisy_relation.hh:63-69. *)
Definition any_incorporate (lk : string -> option any_rel) (W : world) (a : any_rel) (items : items_t) (v : V) (r : rng)
  : outcome (world * any_rel * rng) :=
  match a with
  | AClean D rel => let* (W', rel', r') := rel_incorporate D W rel items v r in Ok (W', AClean D rel', r')
  | ANoisy n =>
    let* b := base_of lk n in
    let* (W', n', r') := noisy_incorporate W n b items v r in Ok (W', ANoisy n', r')
  end.
(** clean_relation.hh:146-156, noisy_relation.hh:117-122. *)
Definition any_unincorporate (lk : string -> option any_rel) (W : world) (a : any_rel) (items : items_t)
  : outcome any_rel :=
  match a with
  | AClean D rel => let* rel' := rel_unincorporate D W rel items in Ok (AClean D rel')
  | ANoisy n =>
    let* b := base_of lk n in
    let* n' := noisy_unincorporate W n b items in Ok (ANoisy n')
  end.
(** clean_relation.hh:494-498, noisy_relation.hh:171-176. *)
Definition any_update_value (lk : string -> option any_rel) (W : world) (a : any_rel) (items : items_t) (v : V)
  : outcome any_rel :=
  match a with
  | AClean D rel => let* rel' := rel_update_value D W rel items v in Ok (AClean D rel')
  | ANoisy n =>
    let* b := base_of lk n in
    let* n' := noisy_update_value W n b items v in Ok (ANoisy n')
  end.
(** clean_relation.hh:112-118, noisy_relation.hh:71-83. *)
Definition any_sample_and_incorporate (lk : string -> option any_rel) (W : world) (a : any_rel) (items : items_t) (r : rng)
  : outcome (V * world * any_rel * rng) :=
  match a with
  | AClean D rel =>
    let* (v, W', rel', r') := rel_sample_and_incorporate D W rel items r in Ok (v, W', AClean D rel', r')
  | ANoisy n =>
    let* b := base_of lk n in
    let* (v, W', n', r') := noisy_sample_and_incorporate W n b items r in Ok (v, W', ANoisy n', r')
  end.
(** clean_relation.hh:483-485, noisy_relation.hh:144-146. *)
Definition any_has_observation (a : any_rel) (d : string) (e : Z) : outcome bool :=
  match a with
  | AClean D rel => has_observation D rel d e
  | ANoisy n => has_observation (em_dist (n_em n)) (n_rel n) d e
  end.
(** clean_relation.hh:368-388, noisy_relation.hh:129-133. *)
Definition any_gibbs (o : orders) (W : world) (a : any_rel) (d : string) (e : Z) (tables : list Z) (r : rng)
  : outcome (list R * any_rel * rng) :=
  match a with
  | AClean D rel =>
    let* (lps, rel', r') := logp_gibbs_exact D W rel (o_vecs o) (o_groups o) d e tables r in
    Ok (lps, AClean D rel', r')
  | ANoisy n =>
    let* (lps, rel', r') := logp_gibbs_exact (em_dist (n_em n)) W (n_rel n) (o_vecs o) (o_groups o) d e tables r in
    Ok (lps, ANoisy (n_set n (n_data n) (n_b2n n) rel'), r')
  end.
(** clean_relation.hh:454-481, noisy_relation.hh:139-142. *)
Definition any_set_cluster (o : orders) (W : world) (a : any_rel) (d : string) (e t : Z) (r : rng)
  : outcome (any_rel * rng) :=
  match a with
  | AClean D rel =>
    let* (rel', r') := rel_set_cluster D W rel (o_vecs o) d e t r in Ok (AClean D rel', r')
  | ANoisy n =>
    let* (rel', r') := rel_set_cluster (em_dist (n_em n)) W (n_rel n) (o_vecs o) d e t r in
    Ok (ANoisy (n_set n (n_data n) (n_b2n n) rel'), r')
  end.
(** clean_relation.hh:512-519, noisy_relation.hh:204-206. *)
Definition any_hparams (o : orders) (a : any_rel) (r : rng) : outcome (any_rel * rng) :=
  match a with
  | AClean D rel =>
    let* (rel', r') := transition_cluster_hparams D rel (fun m => o_vecs o (dom m)) r in Ok (AClean D rel', r')
  | ANoisy n =>
    let* (rel', r') := transition_cluster_hparams (em_dist (n_em n)) (n_rel n) (fun m => o_vecs o (dom m)) r in
    Ok (ANoisy (n_set n (n_data n) (n_b2n n) rel'), r')
  end.
(** clean_relation.hh:446-452, noisy_relation.hh:137. *)
Definition any_score (a : any_rel) : R :=
  match a with AClean D rel => rel_logp_score D rel | ANoisy n => rel_logp_score (em_dist (n_em n)) (n_rel n) end.
(** clean_relation.hh:135-144, noisy_relation.hh:111. *)
Definition any_cleanup_clusters (a : any_rel) : any_rel :=
  match a with AClean D rel => AClean D (cleanup_clusters D rel) | ANoisy n => ANoisy (noisy_cleanup_clusters n) end.
(** clean_relation.hh:164-168, noisy_relation.hh:91-95. *)
Definition any_incorporate_to_cluster (lk : string -> option any_rel) (W : world) (a : any_rel) (items : items_t) (v : V)
  : outcome any_rel :=
  match a with
  | AClean D rel => let* rel' := incorporate_to_cluster D W rel items v in Ok (AClean D rel')
  | ANoisy n =>
    let* b := base_of lk n in
    let* n' := noisy_incorporate_to_cluster W n b items v in Ok (ANoisy n')
  end.
(** clean_relation.hh:170-176, noisy_relation.hh:113-115. *)
Definition any_unincorporate_from_cluster (W : world) (a : any_rel) (items : items_t) : outcome any_rel :=
  match a with
  | AClean D rel => let* rel' := unincorporate_from_cluster D W rel items in Ok (AClean D rel')
  | ANoisy n => let* n' := noisy_unincorporate_from_cluster W n items in Ok (ANoisy n')
  end.
(** clean_relation.hh:521-530; a noisy relation inherits relation.hh:141-143. *)
Definition any_nearest (W : world) (a : any_rel) (v : V) (items : items_t) (r : rng) : outcome (V * rng) :=
  match a with
  | AClean D rel => rel_nearest D W rel v items r
  | ANoisy n => Ok (v, r)
  end.

(** * transition_latent_value.hh *)

(** The base relation and the noisy relations over it, each with the domains of the
    IRM it lives in; the list is in the iteration order of the (copied) hash map. *)
Notation latent_state := (any_rel * list noisy)%type.

(** :83-92: the inner loop of [unincorporate_and_store_values] for one noisy
    relation; [operator[]] creates the entry of [base_to_noisy_items]. *)
Definition store_step (Wn : world) (st : noisy * gmap items_t V) (items : items_t) : outcome (noisy * gmap items_t V) :=
  let '(n, obs) := st in
  let* v := noisy_get_value n items in
  let* n' := noisy_unincorporate_from_cluster Wn n items in
  Ok (n', <[items := v]> obs).
Definition store_noisy (o : orders) (Wn : world) (bi : items_t) (n : noisy)
  : outcome (noisy * gmap items_t V) :=
  let s := default ∅ (n_b2n n !! bi) in
  let n := n_set n (n_data n) (<[bi := s]> (n_b2n n)) (n_rel n) in
  foldM (store_step Wn) (n, ∅) (o_vecs o s).

Fixpoint store_all (o : orders) (Ws : list world) (bi : items_t) (ns : list noisy)
  : outcome (list noisy * list (gmap items_t V)) :=
  match Ws, ns with
  | Wn :: Ws', n :: ns' =>
    let* (n', obs) := store_noisy o Wn bi n in
    let* (ns'', obss) := store_all o Ws' bi ns' in
    Ok (n' :: ns'', obs :: obss)
  | _, _ => Ok ([], [])
  end.

(** :71-94 [unincorporate_and_store_values]. *)
Definition unincorporate_and_store (o : orders) (Wb : world) (Ws : list world) (bi : items_t) (st : latent_state)
  : outcome (latent_state * list (gmap items_t V)) :=
  let '(base, ns) := st in
  let* base := any_unincorporate_from_cluster Wb base bi in
  let* (ns, obss) := store_all o Ws bi ns in
  Ok (base, ns, obss).

(** :42-47. *)
Definition all_observations (o : orders) (obss : list (gmap items_t V)) : list V :=
  obss ≫= fun obs => omap (fun items => obs !! items) (o_vecs o (dom obs)).

(** :53-66: one clean proposal per emission block of every noisy relation. *)
Definition propose_one (Wb : world) (bi : items_t) (base : any_rel) (all : list V) (n : noisy)
    (st : list V * rng) (z : list Z) : outcome (list V * rng) :=
  let '(cands, r) := st in
  let* c := at_ (r_clusters (n_rel n) !! z) in
  let* (v, r) := em_propose (n_em n) c all r in
  let* (v, r) := any_nearest Wb base v bi r in
  Ok (cands ++ [v], r).
Definition candidates (o : orders) (Wb : world) (bi : items_t) (base : any_rel) (ns : list noisy)
    (all : list V) (r : rng) : outcome (list V * rng) :=
  foldM (fun st n => foldM (propose_one Wb bi base all n) st (o_vecs o (dom (r_clusters (n_rel n))))) ([], r) ns.

(** :119-124, :134-138, :170-174: one pass over the noisy observations of [bi]. *)
Fixpoint each_noisy (f : world -> noisy -> gmap items_t V -> items_t -> outcome noisy)
    (o : orders) (Ws : list world) (bi : items_t) (ns : list noisy) (obss : list (gmap items_t V))
  : outcome (list noisy) :=
  match Ws, ns, obss with
  | Wn :: Ws', n :: ns', obs :: obss' =>
    let* s := at_ (n_b2n n !! bi) in
    let* n' := foldM (fun n items => f Wn n obs items) n (o_vecs o s) in
    let* ns'' := each_noisy f o Ws' bi ns' obss' in
    Ok (n' :: ns'')
  | _, _, _ => Ok []
  end.
Definition put_noisy (b : base_view) (Wn : world) (n : noisy) (obs : gmap items_t V) (items : items_t) : outcome noisy :=
  let* v := at_ (obs !! items) in noisy_incorporate_to_cluster Wn n b items v.
Definition take_noisy (Wn : world) (n : noisy) (obs : gmap items_t V) (items : items_t) : outcome noisy :=
  noisy_unincorporate_from_cluster Wn n items.

Definition noisy_scores (ns : list noisy) : R :=
  foldl (fun acc n => (acc + rel_logp_score (em_dist (n_em n)) (n_rel n))%R) 0%R ns.

(** :117-140: the loop body of [latent_values_incremental_logp].  The value the
    noisy relations pair their observations with is read from the base relation's
    data, which still holds the old value, and the value taken out of the base
    block is that old value too. *)
Definition try_candidate (lk : string -> option any_rel) (o : orders) (Wb : world) (Ws : list world) (bi : items_t)
    (obss : list (gmap items_t V)) (baseline : R) (st : latent_state) (v : V) : outcome (R * latent_state) :=
  let '(base, ns) := st in
  let* base := any_incorporate_to_cluster lk Wb base bi v in
  let* ns := each_noisy (put_noisy (view_of base)) o Ws bi ns obss in
  let score := noisy_scores ns in
  let* ns := each_noisy take_noisy o Ws bi ns obss in
  let* base := any_unincorporate_from_cluster Wb base bi in
  Ok ((score - baseline)%R, (base, ns)).

Definition logp_step (lk : string -> option any_rel) (o : orders) (Wb : world) (Ws : list world) (bi : items_t)
    (obss : list (gmap items_t V)) (baseline : R) (acc : list R * latent_state) (v : V) : outcome (list R * latent_state) :=
  let '(logpx, st) := acc in
  let* (x, st) := try_candidate lk o Wb Ws bi obss baseline st v in
  Ok (logpx ++ [x], st).

(** :101-143 [latent_values_incremental_logp]. *)
Definition incremental_logp (lk : string -> option any_rel) (o : orders) (Wb : world) (Ws : list world) (bi : items_t)
    (cands : list V) (obss : list (gmap items_t V)) (st : latent_state) : outcome (list R * latent_state) :=
  let baseline := noisy_scores st.2 in
  foldM (logp_step lk o Wb Ws bi obss baseline) ([], st) cands.

(** :150-176 [choose_and_incorporate_value]. *)
Definition choose_and_incorporate (lk : string -> option any_rel) (o : orders) (Wb : world) (Ws : list world) (bi : items_t)
    (cands : list V) (logpx : list R) (obss : list (gmap items_t V)) (st : latent_state) (r : rng)
  : outcome (latent_state * rng) :=
  let '(base, ns) := st in
  let* (i, r) := log_choice (Some <$> logpx) r in
  let* v := idx_ (cands !! i) in
  let* base := any_incorporate_to_cluster lk Wb base bi v in
  let* base := any_update_value lk Wb base bi v in
  let* ns := each_noisy (put_noisy (view_of base)) o Ws bi ns obss in
  Ok (base, ns, r).

(** :28-69 [transition_latent_value]; [lk] resolves the base of the base relation
    when that is itself noisy. *)
Definition transition_latent_value (lk : string -> option any_rel) (o : orders) (Wb : world) (Ws : list world) (bi : items_t)
    (st : latent_state) (r : rng) : outcome (latent_state * rng) :=
  let* (st, obss) := unincorporate_and_store o Wb Ws bi st in
  let all := all_observations o obss in
  let* (cands, r) := candidates o Wb bi st.1 st.2 all r in
  let* (logpx, st) := incremental_logp lk o Wb Ws bi cands obss st in
  choose_and_incorporate lk o Wb Ws bi cands logpx obss st r.
End Noisy.
Global Arguments noisy V : clear implicits.
Global Arguments any_rel V : clear implicits.
Global Arguments base_view V : clear implicits.
