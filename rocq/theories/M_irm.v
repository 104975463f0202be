(** Model of cxx/irm.{hh,cc}. *)
From stdpp Require Import gmap strings sorting.
From Coq Require Import ZArith Reals.
From Verif Require Import M_base M_math M_crp M_domain M_dist M_relation M_noisy.

(** Iteration over a [std::map<std::string, _>]: keys in increasing order. *)
Definition str_le (a b : string) : Prop := String.leb a b = true.
Global Instance str_le_dec : RelDecision str_le.
Proof. intros a b. unfold str_le. apply _. Defined.
Definition sorted_names {A} (m : gmap string A) : list string := merge_sort str_le (elements (dom m)).

Section Irm.
Context {V : Type}.

(** clean_relation.hh:19-33 and noisy_relation.hh:19-35; irm.hh:14 [T_relation]. *)
Inductive t_rel :=
| TClean (domains : list string) (is_observed : bool) (D : Dist V) (spec : d_spec D)
| TNoisy (domains : list string) (is_observed : bool) (E : Emis V) (spec : d_spec (em_dist E)) (base : string).
Definition t_domains (t : t_rel) : list string := match t with TClean ds _ _ _ | TNoisy ds _ _ _ _ => ds end.
Definition t_observed (t : t_rel) : bool := match t with TClean _ b _ _ | TNoisy _ b _ _ _ => b end.

(** irm.hh:23-33. *)
Record irm := Irm {
  i_schema : gmap string t_rel;
  i_domains : world;
  i_rels : gmap string (any_rel V);
  i_d2r : gmap string (gset string);
  i_b2n : gmap string (list string);
}.
Definition irm_empty : irm := Irm ∅ ∅ ∅ ∅ ∅.
Definition i_set_domains (ir : irm) W := Irm (i_schema ir) W (i_rels ir) (i_d2r ir) (i_b2n ir).
Definition i_set_rel (ir : irm) (name : string) (a : any_rel V) :=
  Irm (i_schema ir) (i_domains ir) (<[name := a]> (i_rels ir)) (i_d2r ir) (i_b2n ir).

(** Name resolution for base pointers inside one IRM. *)
Definition irm_lookup (ir : irm) (name : string) : option (any_rel V) := i_rels ir !! name.

(** * Schema: irm.cc:304-400 *)

(** irm.cc:304-317 [add_domains]. *)
Definition add_domains (ir : irm) (name : string) (ds : list string) : outcome irm :=
  foldM (fun ir d =>
    let* ir :=
      if bool_decide (d ∈ dom (i_domains ir)) then Ok ir
      else
        let* _ := assert_ (bool_decide (d ∉ dom (i_d2r ir))) in
        Ok (Irm (i_schema ir) (<[d := dom_new]> (i_domains ir)) (i_rels ir) (<[d := ∅]> (i_d2r ir)) (i_b2n ir)) in
    let* s := at_ (i_d2r ir !! d) in
    let* _ := at_ (i_domains ir !! d) in
    Ok (Irm (i_schema ir) (i_domains ir) (i_rels ir) (<[d := {[name]} ∪ s]> (i_d2r ir)) (i_b2n ir))) ir ds.

(** [assert(!schema.contains(name)); assert(!relations.contains(name));] *)
Definition assert_fresh (ir : irm) (name : string) : outcome unit :=
  let* _ := assert_ (bool_decide (name ∉ dom (i_schema ir))) in
  assert_ (bool_decide (name ∉ dom (i_rels ir))).

(** irm.cc:325-327, :354-355, :376-377: enter a relation object and its schema line. *)
Definition i_enter (ir : irm) (name : string) (a : any_rel V) (t : t_rel) : irm :=
  Irm (<[name := t]> (i_schema ir)) (i_domains ir) (<[name := a]> (i_rels ir)) (i_d2r ir) (i_b2n ir).
Definition i_push_noisy (ir : irm) (base name : string) : irm :=
  Irm (i_schema ir) (i_domains ir) (i_rels ir) (i_d2r ir)
    (<[base := default [] (i_b2n ir !! base) ++ [name]]> (i_b2n ir)).

(** irm.cc:319-328 [add_relation] for a clean relation. *)
Definition irm_add_clean (ir : irm) (name : string) (ds : list string) (obs : bool) (D : Dist V) (sp : d_spec D)
  : outcome irm :=
  let* _ := assert_fresh ir name in
  let* ir := add_domains ir name ds in
  let* rel := rel_new D ds sp in
  Ok (i_enter ir name (AClean D rel) (TClean ds obs D sp)).

(** irm.cc:330-356 [add_relation] for a noisy relation.  When the base is not among
    the relations it is looked up in the IRM's own schema with [.at]; an entry found
    there would make the recursive call fail its first assertion. *)
Definition irm_add_noisy (ir : irm) (name : string) (ds : list string) (obs : bool)
    (E : Emis V) (sp : d_spec (em_dist E)) (base : string) : outcome irm :=
  let* _ := assert_fresh ir name in
  let* ir := add_domains ir name ds in
  let* _ := match i_rels ir !! base with
            | Some _ => Ok tt
            | None => match i_schema ir !! base with None => Throws | Some _ => AssertFail end
            end in
  let ir := i_push_noisy ir base name in
  let* n := noisy_new E sp ds base in
  Ok (i_enter ir name (ANoisy n) (TNoisy ds obs E sp base)).

Definition irm_add_relation (ir : irm) (name : string) (t : t_rel) : outcome irm :=
  match t with
  | TClean ds obs D sp => irm_add_clean ir name ds obs D sp
  | TNoisy ds obs E sp base => irm_add_noisy ir name ds obs E sp base
  end.

(** irm.cc:358-379 [add_relation_with_base]. *)
Definition irm_add_with_base (ir : irm) (name : string) (ds : list string) (obs : bool)
    (E : Emis V) (sp : d_spec (em_dist E)) (base : string) : outcome irm :=
  let* _ := assert_fresh ir name in
  let* ir := add_domains ir name ds in
  let* n := noisy_new E sp ds base in
  Ok (i_push_noisy (i_enter ir name (ANoisy n) (TNoisy ds obs E sp base)) base name).

(** irm.cc:32-38 [IRM::IRM]: relations are added in the order of their names. *)
Definition irm_new (schema : gmap string t_rel) : outcome irm :=
  let* ir := foldM (fun ir name =>
    let* t := at_ (schema !! name) in irm_add_relation ir name t) irm_empty (sorted_names schema) in
  let* _ := assert_ (bool_decide (size (i_schema ir) = size (i_rels ir))) in
  Ok ir.

(** irm.cc:381-400 [remove_relation]. *)
Definition irm_remove_relation (o : orders) (ir : irm) (name : string) : outcome irm :=
  let* a := at_ (i_rels ir !! name) in
  let ds : gset string := list_to_set (any_doms a) in
  let* ir := foldM (fun ir d =>
    let* s := at_ (i_d2r ir !! d) in
    let s' := s ∖ {[name]} in
    if bool_decide (s' = ∅) then
      let* _ := at_ (i_domains ir !! d) in
      Ok (Irm (i_schema ir) (delete d (i_domains ir)) (i_rels ir) (delete d (i_d2r ir)) (i_b2n ir))
    else Ok (Irm (i_schema ir) (i_domains ir) (i_rels ir) (<[d := s']> (i_d2r ir)) (i_b2n ir))) ir (o_names o ds) in
  Ok (Irm (delete name (i_schema ir)) (i_domains ir) (delete name (i_rels ir)) (i_d2r ir) (i_b2n ir)).

(** * Observations: irm.cc:49-99 *)

(** irm.cc:49-58 [incorporate]. *)
Definition irm_incorporate (lk : string -> option (any_rel V)) (ir : irm) (name : string) (items : items_t) (v : V) (r : rng)
  : outcome (irm * rng) :=
  let* a := at_ (i_rels ir !! name) in
  let* (W, a', r') := any_incorporate lk (i_domains ir) a items v r in
  Ok (i_set_rel (i_set_domains ir W) name a', r').

(** irm.cc:64-78: does some relation over the domain mention the entity? *)
Definition mark_present (o : orders) (ir : irm) (m : gmap (string * Z) bool) (de : string * Z)
  : outcome (gmap (string * Z) bool) :=
  let '(d, e) := de in
  let* names := at_ (i_d2r ir !! d) in
  foldM (fun m name =>
    let* a := at_ (i_rels ir !! name) in
    let* b := any_has_observation a d e in
    let* old := at_ (A:=bool) (m !! (d, e)) in
    Ok (<[(d, e) := old || b]> m)) m (o_names o names).

(** irm.cc:79-86. *)
Definition drop_absent (st : world * gmap (string * Z) bool) (de : string * Z)
  : outcome (world * gmap (string * Z) bool) :=
  let '(W, m) := st in
  let '(d, e) := de in
  let* present := at_ (A:=bool) (m !! (d, e)) in
  if present then Ok (W, m)
  else
    let* dm := deref W d in
    let* dm' := dom_unincorporate dm e in
    Ok (<[d := dm']> W, <[(d, e) := true]> m).

(** irm.cc:60-87 [unincorporate]. *)
Definition irm_unincorporate (lk : string -> option (any_rel V)) (o : orders) (ir : irm) (name : string) (items : items_t)
  : outcome irm :=
  let* a := at_ (i_rels ir !! name) in
  let* a' := any_unincorporate lk (i_domains ir) a items in
  let ir := i_set_rel ir name a' in
  let* t := at_ (i_schema ir !! name) in
  let ds := t_domains t in
  if bool_decide (length ds <= length items) then
    let pairs := zip ds items in
    let m0 : gmap (string * Z) bool := foldr (fun de m => <[de := false]> m) ∅ pairs in
    let* m := foldM (mark_present o ir) m0 pairs in
    let* (W, _) := foldM drop_absent (i_domains ir, m) pairs in
    Ok (i_set_domains ir W)
  else UB.

(** irm.cc:89-99 [has_observation]: stops at the first relation with the entity. *)
Fixpoint has_obs_loop (ir : irm) (d : string) (e : Z) (names : list string) : outcome bool :=
  match names with
  | [] => Ok false
  | name :: names' =>
    let* a := at_ (i_rels ir !! name) in
    let* b := any_has_observation a d e in
    if b then Ok true else has_obs_loop ir d e names'
  end.
Definition irm_has_observation (o : orders) (ir : irm) (d : string) (e : Z) : outcome bool :=
  let* names := at_ (i_d2r ir !! d) in
  let* _ := if bool_decide (names = ∅) then Ok dom_new else at_ (i_domains ir !! d) in
  has_obs_loop ir d e (o_names o names).

(** * Cluster transitions: irm.cc:101-162 *)

Definition add_lists (xs ys : list R) : list R := zip_with Rplus xs ys.

(** irm.cc:132-145: add up the scores of the relations that mention the entity. *)
Definition accumulate_logps (o : orders) (d : string) (e : Z) (tables : list Z)
    (st : irm * list R * rng) (name : string) : outcome (irm * list R * rng) :=
  let '(ir, logps, r) := st in
  let* a := at_ (i_rels ir !! name) in
  let* b := any_has_observation a d e in
  if b then
    let* (lps, a', r') := any_gibbs o (i_domains ir) a d e tables r in
    let* _ := assert_ (bool_decide (length lps = length tables)) in
    Ok (i_set_rel ir name a', add_lists logps lps, r')
  else Ok (ir, logps, r).

(** irm.cc:152-159: move the blocks of the relations that mention the entity. *)
Definition set_cluster_r (o : orders) (d : string) (e t : Z) (st : irm * rng) (name : string) : outcome (irm * rng) :=
  let '(ir, r) := st in
  let* a := at_ (i_rels ir !! name) in
  let* b := any_has_observation a d e in
  if b then
    let* (a', r') := any_set_cluster o (i_domains ir) a d e t r in
    Ok (i_set_rel ir name a', r')
  else Ok (ir, r).

(** irm.cc:121-145: the candidate clusters and their unnormalised log probabilities. *)
Definition irm_item_logps (o : orders) (ir : irm) (d : string) (e : Z) (r : rng)
  : outcome (list Z * list R * irm * rng) :=
  let* dm := at_ (i_domains ir !! d) in
  let* crp_dist := dom_tables_weights_gibbs dm e in
  let tables := sorted_keys crp_dist in
  let logps := (fun t => ln (default 0%R (crp_dist !! t))) <$> tables in
  let* names := at_ (i_d2r ir !! d) in
  let* (ir, logps, r) := foldM (accumulate_logps o d e tables) (ir, logps, r) (o_names o names) in
  Ok (tables, logps, ir, r).

(** irm.cc:151-161: move the entity, in the relations and then in its domain. *)
Definition irm_move_item (o : orders) (ir : irm) (d : string) (e choice : Z) (r : rng) : outcome (irm * rng) :=
  let* names := at_ (i_d2r ir !! d) in
  let* (ir, r) := foldM (set_cluster_r o d e choice) (ir, r) (o_names o names) in
  let* dm := deref (i_domains ir) d in
  let* dm' := dom_set_cluster dm e choice in
  Ok (i_set_domains ir (<[d := dm']> (i_domains ir)), r).

(** irm.cc:118-162 [transition_cluster_assignment_item]. *)
Definition irm_transition_item (o : orders) (ir : irm) (d : string) (e : Z) (r : rng) : outcome (irm * rng) :=
  let* (tables, logps, ir, r) := irm_item_logps o ir d e r in
  let* (i, r) := log_choice (Some <$> logps) r in
  let* choice := idx_ (tables !! i) in
  let* dm := deref (i_domains ir) d in
  let* cur := dom_get_cluster dm e in
  if bool_decide (choice = cur) then Ok (ir, r)
  else irm_move_item o ir d e choice r.

(** irm.cc:109-116 [transition_cluster_assignments]. *)
Definition irm_transition_domain (o : orders) (st : irm * rng) (d : string) : outcome (irm * rng) :=
  let '(ir, r) := st in
  let* dm := at_ (i_domains ir !! d) in
  foldM (fun '(ir, r) e => irm_transition_item o ir d e r) (ir, r) (o_ents o (dom_items dm)).
Definition irm_transition (o : orders) (ir : irm) (ds : list string) (r : rng) : outcome (irm * rng) :=
  foldM (irm_transition_domain o) (ir, r) ds.
(** irm.cc:101-107 [transition_cluster_assignments_all]. *)
Definition irm_transition_all (o : orders) (ir : irm) (r : rng) : outcome (irm * rng) :=
  irm_transition o ir (o_names o (dom (i_domains ir))) r.

(** * Latent values: irm.cc:164-179 *)

Definition as_noisy (a : any_rel V) : outcome (noisy V) :=
  match a with ANoisy n => Ok n | AClean _ _ => UB end.
Fixpoint get_noisies (ir : irm) (names : list string) : outcome (list (noisy V)) :=
  match names with
  | [] => Ok []
  | name :: names' =>
    let* a := at_ (i_rels ir !! name) in
    let* n := as_noisy a in
    let* ns := get_noisies ir names' in
    Ok (n :: ns)
  end.
Definition put_noisies (ir : irm) (l : list (string * noisy V)) : irm :=
  foldl (fun ir p => i_set_rel ir p.1 (ANoisy p.2)) ir l.

(** irm.cc:164-179 [transition_latent_values_relation]. *)
Definition irm_latent_step (o : orders) (name : string) (names : list string) (st : irm * rng) (bi : items_t)
  : outcome (irm * rng) :=
  let '(ir, r) := st in
  let* base := at_ (i_rels ir !! name) in
  let* ns := get_noisies ir names in
  let Ws := (fun _ => i_domains ir) <$> names in
  let* (base', ns', r') := transition_latent_value (irm_lookup ir) o (i_domains ir) Ws bi (base, ns) r in
  Ok (i_set_rel (put_noisies ir (zip names ns')) name base', r').
Definition irm_transition_latents (o : orders) (ir : irm) (name : string) (r : rng) : outcome (irm * rng) :=
  let* base := at_ (i_rels ir !! name) in
  let* nl := at_ (i_b2n ir !! name) in
  foldM (irm_latent_step o name (o_names o (list_to_set nl))) (ir, r) (o_vecs o (dom (any_data base))).

(** * Score and inference step *)

(** irm.cc:290-302 [logp_score]. *)
Definition irm_logp_score (lg : R -> R) (ir : irm) : R :=
  (map_fold (fun _ dm acc => (acc + crp_logp_score lg (dom_crp dm))%R) 0 (i_domains ir)
   + map_fold (fun _ a acc => (acc + any_score a)%R) 0 (i_rels ir))%R.

(** irm.cc:454-469: hyperparameters of every relation, then the concentration of every domain. *)
Definition irm_hparams_one (o : orders) (st : irm * rng) (name : string) : outcome (irm * rng) :=
  let '(ir, r) := st in
  let* a := at_ (i_rels ir !! name) in
  let* (a', r') := any_hparams o a r in
  Ok (i_set_rel ir name a', r').
Definition irm_alpha_one (lg : R -> R) (st : irm * rng) (d : string) : outcome (irm * rng) :=
  let '(ir, r) := st in
  let* dm := at_ (i_domains ir !! d) in
  let* (c, r') := crp_transition_alpha lg (dom_crp dm) r in
  Ok (i_set_domains ir (<[d := Dom (dom_items dm) c]> (i_domains ir)), r').
(** irm.cc:435-445: latent relations whose schema line says they are not observed. *)
Definition irm_latents_one (o : orders) (st : irm * rng) (name : string) : outcome (irm * rng) :=
  let '(ir, r) := st in
  let* t := at_ (i_schema ir !! name) in
  if t_observed t then Ok (ir, r) else irm_transition_latents o ir name r.

(** irm.cc:428-470 [single_step_irm_inference] (timing and printing left out). *)
Definition irm_single_step (lg : R -> R) (o : orders) (ir : irm) (latents : bool) (r : rng) : outcome (irm * rng) :=
  let* (ir, r) := if latents then foldM (irm_latents_one o) (ir, r) (o_names o (dom (i_b2n ir))) else Ok (ir, r) in
  let* (ir, r) := irm_transition_all o ir r in
  let* (ir, r) := foldM (irm_hparams_one o) (ir, r) (o_names o (dom (i_rels ir))) in
  foldM (irm_alpha_one lg) (ir, r) (o_names o (dom (i_domains ir))).
End Irm.
Global Arguments t_rel V : clear implicits.
Global Arguments irm V : clear implicits.
