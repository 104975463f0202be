(** Specification vocabulary for the file of samples. *)
From Coq Require Import String Ascii.
From stdpp Require Import gmap strings list.
From Coq Require Import ZArith.
From Verif Require Import M_base M_dist M_crp M_domain M_relation M_noisy M_irm M_hirm M_text M_io S_io.
Local Open Scope string_scope.

(** What an entity is called in the file: its name, or a name made of its domain and number. *)
Definition called (names : gmap string (gmap Z string)) (d : string) (e : Z) : string :=
  match names !! d ≫= lookup e with Some x => x | None => str (txt "new_" ++ txt d ++ txt "_" ++ print_int e) end.
Definition called_all (names : gmap string (gmap Z string)) (ds : list string) (es : items_t) : list string := zip_with (called names) ds es.

(** Names and values that the format of observation files can represent; every relation has
    a domain. *)
Record fileable {V} (show : V -> string) (schema : gmap string (t_rel V)) (names : gmap string (gmap Z string)) : Prop := {
  fb_relations : forall rel t, schema !! rel = Some t -> plain rel /\ t_domains t <> [] /\ Forall plain (t_domains t);
  fb_values : forall v, plain (show v);
  fb_entities : forall d m e x, names !! d = Some m -> m !! e = Some x -> plain x /\ x <> "" }.
