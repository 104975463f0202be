(** Scoring held-out observations: [logp] of util_io.cc. *)
From Coq Require Import String Ascii.
From stdpp Require Import gmap sorting strings list.
From Coq Require Import ZArith Reals.
From Verif Require Import M_base M_dist M_crp M_domain M_relation M_noisy M_irm M_logp M_hirm M_text M_io.
Local Open Scope nat_scope.

Section Heldout.
Context {M V : Type} (X : @model_ops M V) (parse : string -> string -> outcome V).

(** util_io.cc:739-742: the observations of one relation; [parse] is [r->from_string]. *)
Definition heldout_one (rel : string) (acc : list (string * items_t * V)) (x : items_t * string) : outcome (list (string * items_t * V)) :=
  let* v := parse rel x.2 in
  Ok (acc ++ [(rel, x.1, v)]).
(** util_io.cc:735-743: one entry of [encoded_obs]. *)
Definition heldout_relation (m : M) (enc : encoded) (acc : list (string * items_t * V)) (rel : string) : outcome (list (string * items_t * V)) :=
  let* _ := op_get X m rel in
  foldM (heldout_one rel) acc (default [] (enc !! rel)).
(** util_io.cc:731-743: the list [logp_obs]; [f] is the encoding's map from names to codes. *)
Definition heldout_list (o : orders) (m : M) (f : gmap string (gmap string Z)) (obs : observations) : outcome (list (string * items_t * V)) :=
  let* enc := encode_observations o f (op_domains X m) obs in
  foldM (heldout_relation m enc) [] (o_names o (dom enc)).
End Heldout.

Section Instances.
Context {V : Type} (parse : string -> string -> outcome V).
(** util_io.cc:729-748 [logp] of an IRM. *)
Definition irm_heldout_logp (o : orders) (ir : irm V) (f : gmap string (gmap string Z)) (obs : observations) (r : rng) : outcome (option R * rng) :=
  let* l := heldout_list irm_ops parse o ir f obs in irm_logp ir l r.
(** util_io.cc:729-748 [logp] of a HIRM. *)
Definition hirm_heldout_logp (o : orders) (h : hirm V) (f : gmap string (gmap string Z)) (obs : observations) (r : rng) : outcome (option R * rng) :=
  let* l := heldout_list hirm_ops parse o h f obs in hirm_logp o h l r.
End Instances.
