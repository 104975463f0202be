(** The program [hirm]: one run of hirm_main.cc in mode [hirm] or [irm]. *)
From Coq Require Import String Ascii.
From stdpp Require Import gmap sorting strings list.
From Coq Require Import ZArith Reals.
From Verif Require Import M_base M_dist M_crp M_domain M_relation M_noisy M_irm M_logp M_hirm M_inference M_text M_io M_clusters M_restore M_heldout.
Local Open Scope nat_scope.

Section Main.
Context {V : Type} (parse : string -> string -> outcome V).

(** hirm_main.cc:77-89: the encoding of the program, from the observations and, if there are
    any, the held-out observations.  The files are taken as read; the order in which a hash
    container is walked is a function of its keys, which is what [o] is. *)
Definition main_encoding (o : orders) (schema : gmap string (t_rel V)) (obs : observations) (heldout : option observations) : outcome encoding :=
  calculate_encoding o (t_domains <$> schema)
    match heldout with None => obs | Some held => merge_observations obs held end.

(** util_io.cc:668-674 [from_txt] of a HIRM, from where it calculates the encoding: from the
    observations alone. *)
Definition main_load (o : orders) (schema : gmap string (t_rel V)) (obs : observations) (file : text) (r : rng) : outcome (hirm V * rng) :=
  let* enc := calculate_encoding o (t_domains <$> schema) obs in
  hirm_from_txt parse o schema obs enc file r.

(** hirm_main.cc:130-139: a new model with the observations, or the one of option [--load]. *)
Definition main_start (o : orders) (schema : gmap string (t_rel V)) (obs : observations) (enc : encoding)
    (load : option text) (r : rng) : outcome (hirm V * rng) :=
  match load with
  | None => let* (h, r) := hirm_new schema r in incorporate_observations hirm_ops parse o h enc obs r
  | Some file => main_load o schema obs file r
  end.

(** hirm_main.cc:144-152: what is written to the file of clusters and, if there are held-out
    observations, the log probability printed for them.  Both use the encoding of the
    program.  For option [--samples] see [M_samples]. *)
Definition main_finish (o : orders) (enc : encoding) (heldout : option observations) (h : hirm V) (r : rng)
  : outcome (text * option (option R) * rng) :=
  let* file := hirm_to_txt o (enc_r enc) h in
  match heldout with
  | None => Ok (file, None, r)
  | Some held => let* (lp, r) := hirm_heldout_logp parse o h (enc_f enc) held r in Ok (file, Some lp, r)
  end.

(** hirm_main.cc:77-152: the whole run; [lg], [oi] and [late] are those of [inference_hirm]. *)
Definition hirm_main (lg : R -> R) (o : orders) (oi : nat -> orders) (late : nat -> bool) (iters : nat) (schema : gmap string (t_rel V))
    (obs : observations) (heldout : option observations) (load : option text) (r : rng) : outcome (text * option (option R) * hirm V) :=
  let* enc := main_encoding o schema obs heldout in
  let* (h, r) := main_start o schema obs enc load r in
  let* (h, r) := inference_hirm lg oi late 0 iters h r in
  let* (out, _) := main_finish o enc heldout h r in
  Ok (out, h).

(** ** Mode [irm] *)
(** hirm_main.cc:95-103 and util_io.cc:636-643: a new model, or the one of option [--load]. *)
Definition irm_main_start (o : orders) (schema : gmap string (t_rel V)) (obs : observations) (enc : encoding)
    (load : option text) (r : rng) : outcome (irm V * rng) :=
  match load with
  | None => let* ir := irm_new schema in incorporate_observations irm_ops parse o ir enc obs r
  | Some file => let* enc := calculate_encoding o (t_domains <$> schema) obs in irm_from_txt parse o schema obs enc file r
  end.
(** hirm_main.cc:77-116: the whole run. *)
Definition irm_main (lg : R -> R) (o : orders) (oi : nat -> orders) (late : nat -> bool) (iters : nat) (schema : gmap string (t_rel V))
    (obs : observations) (heldout : option observations) (load : option text) (r : rng) : outcome (text * option (option R) * irm V) :=
  let* enc := main_encoding o schema obs heldout in
  let* (ir, r) := irm_main_start o schema obs enc load r in
  let* (ir, r) := inference_irm lg oi late 0 iters ir r in
  let* file := irm_to_txt o (enc_r enc) (i_domains ir) [] in
  match heldout with
  | None => Ok (file, None, ir)
  | Some held => let* (lp, _) := irm_heldout_logp parse o ir (enc_f enc) held r in Ok (file, Some lp, ir)
  end.
End Main.
