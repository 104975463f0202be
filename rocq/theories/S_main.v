(** Specification vocabulary for histories of runs of the program. *)
From Coq Require Import String Ascii.
From stdpp Require Import gmap sorting strings list.
From Coq Require Import ZArith Reals.
From Verif Require Import M_base M_dist M_crp M_domain M_relation M_noisy M_irm M_hirm M_text M_io M_clusters M_main S_crp S_relation S_irm S_hirm S_clusters S_restore.
Local Open Scope nat_scope.

(** What the file format can represent (as for a HIRM). *)
Definition irm_printable {V} (rev : gmap string (gmap Z string)) (ir : irm V) : Prop :=
  forall A, world_holds (i_domains ir) A -> printable_names rev A /\ table_numbers table_number A.
(** Inference: public calls that in the end leave the declarations and the data alone. *)
Definition inferred {V} (h h' : hirm V) : Prop := exists cs, hirm_run h cs h' /\ h_schema h' = h_schema h /\ hirm_data h' = hirm_data h.
(** Runs of the program on one schema and one file of observations: the first starts afresh,
    perhaps with held-out observations [held]; each later one loads the clusters that the one
    before has saved, and has no held-out observations.  Each runs any inference it likes,
    and walks hash containers in orders of [walks].  The last run ends with the model [h], in
    which entity [i] of domain [d] is called what [names] says, and has saved [file]. *)
Inductive ran {V} (parse : string -> string -> outcome V) (walks : orders -> Prop) (schema : gmap string (t_rel V)) (obs : observations)
    (held : option observations) : hirm V -> gmap string (gmap Z string) -> text -> Prop :=
| ran_fresh o enc r h1 r1 h r2 file lp r3 : walks o ->
    main_encoding o schema obs held = Ok enc -> main_start parse o schema obs enc None r = Ok (h1, r1) ->
    inferred h1 h -> hirm_printable (enc_r enc) h ->
    main_finish parse o enc held h r2 = Ok (file, lp, r3) -> ran parse walks schema obs held h (enc_r enc) file
| ran_resumed h0 names0 file0 o enc r h1 r1 h r2 file lp r3 : ran parse walks schema obs held h0 names0 file0 -> walks o ->
    main_encoding o schema obs None = Ok enc -> main_start parse o schema obs enc (Some file0) r = Ok (h1, r1) ->
    inferred h1 h -> hirm_printable (enc_r enc) h ->
    main_finish parse o enc None h r2 = Ok (file, lp, r3) -> ran parse walks schema obs held h (enc_r enc) file.

(** The same of the program in mode [irm], with the inference it does. *)
Inductive irm_ran {V} (parse : string -> string -> outcome V) (walks : orders -> Prop) (schema : gmap string (t_rel V)) (obs : observations)
    (held : option observations) : irm V -> gmap string (gmap Z string) -> text -> Prop :=
| irm_ran_fresh lg o oi late iters r enc file lp ir : walks o -> (forall i, walks (oi i)) ->
    main_encoding o schema obs held = Ok enc -> irm_main parse lg o oi late iters schema obs held None r = Ok (file, lp, ir) ->
    irm_printable (enc_r enc) ir -> irm_ran parse walks schema obs held ir (enc_r enc) file
| irm_ran_resumed ir0 names0 file0 lg o oi late iters r enc file lp ir : irm_ran parse walks schema obs held ir0 names0 file0 ->
    walks o -> (forall i, walks (oi i)) ->
    main_encoding o schema obs None = Ok enc -> irm_main parse lg o oi late iters schema obs None (Some file0) r = Ok (file, lp, ir) ->
    irm_printable (enc_r enc) ir -> irm_ran parse walks schema obs held ir (enc_r enc) file.
