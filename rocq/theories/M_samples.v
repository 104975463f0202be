(** The samples of the main program: option [--samples]. *)
From Coq Require Import String Ascii.
From stdpp Require Import gmap sorting strings list.
From Coq Require Import ZArith Reals.
From Verif Require Import M_base M_dist M_crp M_domain M_relation M_noisy M_irm M_hirm M_text M_io.

(** hirm.cc:357-360 and 393: the samples with their values as text. *)
Definition shown {V} (show : V -> string) (obs : gmap string (list (items_t * V))) : encoded :=
  (fun l : list (items_t * V) => map (fun x => (x.1, show x.2)) l) <$> obs.
(** hirm_main.cc:154-160: what is written to the file of samples, if any are asked for, and
    the model afterwards.  [show] prints a value. *)
Definition main_samples {V} (show : V -> string) (o : orders) (fuel : nat) (enc : encoding) (h : hirm V) (n : nat) (r : rng)
  : outcome (option text * hirm V) :=
  if bool_decide (n = 0) then Ok (None, h)
  else
    let* (obs, h, _) := hirm_sample o fuel h n r in
    let* file := write_observations o (enc_r enc) (fun rel => t_domains <$> h_schema h !! rel)
      (shown show obs) in
    Ok (Some file, h).
