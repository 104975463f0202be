(** Specification vocabulary for the HIRM: what its user-visible content is, and what it
    means for its fields to agree with each other. *)
From stdpp Require Import gmap strings.
From Coq Require Import ZArith Reals.
From Verif Require Import M_base M_crp M_domain M_dist M_relation M_noisy M_irm M_hirm
  S_crp S_crp_state S_relation S_irm.

Section SHirm.
Context {V : Type}.

(** A declared relation whose chain of bases ends in a clean relation of the schema. *)
Inductive grounded (schema : gmap string (t_rel V)) : string -> Prop :=
| grounded_clean name t : schema !! name = Some t -> t_base t = None -> grounded schema name
| grounded_noisy name t base : schema !! name = Some t -> t_base t = Some base ->
    grounded schema base -> grounded schema name.
Definition all_grounded (schema : gmap string (t_rel V)) : Prop :=
  forall name, is_Some (schema !! name) -> grounded schema name.

(** The cluster of a relation. *)
Definition table_of (h : hirm V) (name : string) : option Z :=
  rc ← h_code h !! name; crp_assignments (h_crp h) !! rc.

(** The stored observations of every declared relation. *)
Definition hirm_data (h : hirm V) : gmap string (gmap items_t V) :=
  map_imap (fun name _ => any_data <$> hirm_lookup h name) (h_schema h).

(** All fields of a HIRM agree: the CRP holds the seating [a] of relation codes, codes and
    names correspond one to one, the IRMs are those of the occupied clusters, and the
    IRM of a cluster is consistent and declares exactly the relations of the cluster. *)
Record hirm_holds (h : hirm V) (a : seating) : Prop := {
  hh_crp : holds_seating (h_crp h) a;
  hh_codes : forall name rc, h_code h !! name = Some rc <-> h_rel h !! rc = Some name;
  hh_seated : forall rc, is_Some (a !! rc) <-> is_Some (h_rel h !! rc);
  hh_schema : forall name, is_Some (h_code h !! name) <-> is_Some (h_schema h !! name);
  hh_grounded : all_grounded (h_schema h);
  hh_lawful : schema_lawful (h_schema h);
  hh_domains : forall name ty, h_schema h !! name = Some ty -> t_domains ty <> [];
  hh_irms : forall t, match h_irms h !! t with
    | Some ir => customers_at a t <> ∅ /\ (exists A, irm_holds (schema_arity (h_schema h)) ir A) /\
        forall name ty, i_schema ir !! name = Some ty <-> h_schema h !! name = Some ty /\ table_of h name = Some t
    | None => customers_at a t = ∅
    end;
}.

(** Every stored observation could be incorporated again: the distribution takes the
    value, and for a noisy relation the base still has a value to pair it with. *)
Definition hirm_closed (h : hirm V) : Prop :=
  forall name t m items v, h_schema h !! name = Some t -> hirm_data h !! name = Some m -> m !! items = Some v ->
    t_accepts (h_schema h) (hirm_data h) t items v.
(** Only declared relations are listed as noisy relations of a base. *)
Definition hirm_listed (h : hirm V) : Prop :=
  forall base ns name, h_b2n h !! base = Some ns -> name ∈ ns -> is_Some (h_schema h !! name).
(** The list of a base names exactly the noisy relations built on it. *)
Definition hirm_listed_exactly (h : hirm V) : Prop :=
  forall base name, (exists ns, h_b2n h !! base = Some ns /\ name ∈ ns) <->
    exists t, h_schema h !! name = Some t /\ t_base t = Some base.

(** Calls on a HIRM. *)
Inductive hirm_call :=
| HAdd (name : string) (t : t_rel V) (r : rng)
| HRemove (o : orders) (name : string)
| HIncorporate (name : string) (items : items_t) (v : V) (r : rng)
| HUnincorporate (o : orders) (name : string) (items : items_t)
| HMove (o : orders) (name : string) (table : Z) (r : rng)
| HTransition (o : orders) (names : list string) (r : rng)
| HTransitionAll (o : orders) (r : rng)
| HIrmStep (lg : R -> R) (o : orders) (table : Z) (r : rng).

Definition hirm_do (h : hirm V) (c : hirm_call) : outcome (hirm V) :=
  match c with
  | HAdd name t r => let* (h', _) := hirm_add_relation h name t r in Ok h'
  | HRemove o name => hirm_remove_relation o h name
  | HIncorporate name items v r => let* (h', _) := hirm_incorporate h name items v r in Ok h'
  | HUnincorporate o name items => hirm_unincorporate o h name items
  | HMove o name table r => let* (h', _) := hirm_set_cluster o h name table r in Ok h'
  | HTransition o names r => let* (h', _) := hirm_transition o h names r in Ok h'
  | HTransitionAll o r => let* (h', _) := hirm_transition_all o h r in Ok h'
  | HIrmStep lg o table r => let* (h', _) := hirm_irm_step lg o (h, r) table in Ok h'
  end.

(** What callers have to respect: distributions obey their laws, a noisy relation has the
    domains of its base first, and a relation is not removed while another one is built on
    it (hirm.cc:271-273 says that this leaves the other one invalid). *)
Definition hirm_call_ok (h : hirm V) (c : hirm_call) : Prop :=
  match c with
  | HAdd name t _ => t_lawful t /\
      forall b tb, t_base t = Some b -> h_schema h !! b = Some tb -> length (t_domains tb) <= length (t_domains t)
  | HRemove o name => orders_ok o /\ forall n t, h_schema h !! n = Some t -> t_base t <> Some name
  | HIncorporate _ _ _ _ => True
  | HUnincorporate o _ _ | HMove o _ _ _ | HTransition o _ _ | HTransitionAll o _ | HIrmStep _ o _ _ => orders_ok o
  end.

(** Restrictions under which every stored observation stays usable: an observation that
    some noisy observation is paired with is not taken out, and a noisy relation is not
    removed. *)
Definition hirm_call_gentle (h : hirm V) (c : hirm_call) : Prop :=
  match c with
  | HUnincorporate _ name items => forall n t tb m k v, h_schema h !! n = Some t -> t_base t = Some name ->
      h_schema h !! name = Some tb -> hirm_data h !! n = Some m -> m !! k = Some v -> take (length (t_domains tb)) k <> items
  | HRemove _ name => forall t, h_schema h !! name = Some t -> t_base t = None
  | _ => True
  end.

(** A history of calls that all return. *)
Inductive hirm_run : hirm V -> list hirm_call -> hirm V -> Prop :=
| run_nil h : hirm_run h [] h
| run_cons h c h1 cs h' : hirm_call_ok h c -> hirm_do h c = Ok h1 -> hirm_run h1 cs h' -> hirm_run h (c :: cs) h'.
(** The same, with gentle calls only. *)
Inductive hirm_gentle_run : hirm V -> list hirm_call -> hirm V -> Prop :=
| gentle_nil h : hirm_gentle_run h [] h
| gentle_cons h c h1 cs h' : hirm_call_ok h c -> hirm_call_gentle h c -> hirm_do h c = Ok h1 ->
    hirm_gentle_run h1 cs h' -> hirm_gentle_run h (c :: cs) h'.

(** What a call should do to the declarations and to the observations. *)
Definition hirm_schema_after (schema : gmap string (t_rel V)) (c : hirm_call) : gmap string (t_rel V) :=
  match c with
  | HAdd name t _ => <[name := t]> schema
  | HRemove _ name => delete name schema
  | _ => schema
  end.
Definition hirm_data_after (data : gmap string (gmap items_t V)) (c : hirm_call) : gmap string (gmap items_t V) :=
  match c with
  | HAdd name _ _ => <[name := ∅]> data
  | HRemove _ name => delete name data
  | HIncorporate name items v _ => alter (fun m => <[items := v]> m) name data
  | HUnincorporate _ name items => alter (fun m => delete items m) name data
  | _ => data
  end.
End SHirm.
Global Arguments hirm_call V : clear implicits.
