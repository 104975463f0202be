(** Specification vocabulary: what inference may change in the stored observations. *)
From stdpp Require Import gmap strings.
From Coq Require Import ZArith.
From Verif Require Import M_base M_dist M_relation M_noisy M_irm M_hirm S_irm S_hirm.

(** The same tuples are observed; unless the relation is latent, with the same values. *)
Definition keeps_observations {V} (latent : Prop) (m m' : gmap items_t V) : Prop :=
  dom m' = dom m /\ (~ latent -> m' = m).
(** A relation is latent when its declaration says that it is not observed. *)
Definition latent_in {V} (schema : gmap string (t_rel V)) (name : string) : Prop :=
  exists t, schema !! name = Some t /\ t_observed t = false.
(** The stored observations of all relations, before and after. *)
Definition keeps_all {V} (schema : gmap string (t_rel V)) (d d' : gmap string (gmap items_t V)) : Prop :=
  dom d' = dom d /\
  forall name m, d !! name = Some m -> exists m', d' !! name = Some m' /\ keeps_observations (latent_in schema name) m m'.

(** The hyperparameter step of a distribution never fails. *)
Definition resamples {V} (D : Dist V) : Prop := forall s r, exists s' r', d_resample D s r = Ok (s', r').
Definition t_resamples {V} (t : t_rel V) : Prop :=
  match t with TClean _ _ D _ => resamples D | TNoisy _ _ E _ _ => resamples (em_dist E) end.
Definition schema_resamples {V} (schema : gmap string (t_rel V)) : Prop := forall name t, schema !! name = Some t -> t_resamples t.
(** No latent relation has a stored observation. *)
Definition no_latent_observations {V} (h : hirm V) : Prop :=
  forall name m, latent_in (h_schema h) name -> hirm_data h !! name = Some m -> m = ∅.

(** The steps that inference is made of, in any order. *)
Inductive infer_step : Type :=
| ILatent (o : orders) (name : string) (r : rng)
| IMoves (o : orders) (names : list string) (r : rng)
| IIrm (lg : Rdefinitions.R -> Rdefinitions.R) (o : orders) (table : Z) (r : rng).
Definition infer_do {V} (h : hirm V) (s : infer_step) : outcome (hirm V) :=
  match s with
  | ILatent o name r => let* (h', _) := hirm_transition_latents o h name r in Ok h'
  | IMoves o names r => let* (h', _) := hirm_transition o h names r in Ok h'
  | IIrm lg o table r => let* (h', _) := hirm_irm_step lg o (h, r) table in Ok h'
  end.
(** Latent values are transitioned in latent relations only (inference.cc:54-59). *)
Definition infer_step_ok {V} (schema : gmap string (t_rel V)) (s : infer_step) : Prop :=
  match s with
  | ILatent o name _ => orders_ok o /\ latent_in schema name
  | IMoves o _ _ => orders_ok o
  | IIrm _ o _ _ => orders_ok o
  end.
