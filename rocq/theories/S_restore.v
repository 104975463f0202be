(** Specification vocabulary for building a model from files. *)
From Coq Require Import String Ascii.
From stdpp Require Import gmap strings list.
From Coq Require Import ZArith Reals.
From Verif Require Import M_base M_dist M_crp M_domain M_relation M_noisy M_text M_io M_irm M_hirm S_crp S_relation S_irm S_hirm S_clusters.
Local Open Scope nat_scope.

(** Entity [i] of domain [d] is called [x]. *)
Definition named (rev : gmap string (gmap Z string)) (d : string) (i : Z) (x : string) : Prop := exists m, rev !! d = Some m /\ m !! i = Some x.
(** Two clusterings say the same of the named entities, although the numbers that stand for
    the names may differ. *)
Record renamed (rev rev' : gmap string (gmap Z string)) (A A' : clustering) : Prop := {
  rn_domains : dom A' = dom A;
  rn_named : forall d i t, seat A d i = Some t -> exists x, named rev d i x;
  rn_named' : forall d i t, seat A' d i = Some t -> exists x, named rev' d i x;
  rn_seats : forall d x t, (exists i, named rev d i x /\ seat A d i = Some t) <-> (exists i, named rev' d i x /\ seat A' d i = Some t);
}.
(** [A'] seats everybody [A] seats, in the same cluster; and whoever else is there, the data
    of the relations of the same cluster of relations mention. *)
Record extends {V} (h : hirm V) (t : Z) (A A' : clustering) : Prop := {
  ex_domains : dom A' = dom A;
  ex_seats : forall d i c, seat A d i = Some c -> seat A' d i = Some c;
  ex_others : forall d i, is_Some (seat A' d i) -> is_Some (seat A d i) \/
    exists n ty m items, h_schema h !! n = Some ty /\ table_of h n = Some t /\ hirm_data h !! n = Some m /\ is_Some (m !! items) /\ mentions (t_domains ty) items d i;
}.
(** Every relation is in its cluster, and every entity of every cluster of relations in its. *)
Record restored {V} (rev rev' : gmap string (gmap Z string)) (h h' : hirm V) : Prop := {
  re_schema : h_schema h' = h_schema h;
  re_tables : forall n, table_of h' n = table_of h n;
  re_irms : forall t, match h_irms h !! t, h_irms h' !! t with
    | Some ir, Some ir' => forall A A', world_holds (i_domains ir) A -> world_holds (i_domains ir') A' ->
        exists A0, renamed rev rev' A A0 /\ extends h' t A0 A'
    | None, None => True
    | _, _ => False
    end;
}.
(** The same for a single IRM. *)
Record irm_extends {V} (ir : irm V) (A A' : clustering) : Prop := {
  ix_domains : dom A' = dom A;
  ix_seats : forall d i c, seat A d i = Some c -> seat A' d i = Some c;
  ix_others : forall d i, is_Some (seat A' d i) -> is_Some (seat A d i) \/
    exists n x, i_rels ir !! n = Some x /\ any_mentions x d i;
}.
(** Inference: no relation comes or goes, and no observation. *)
Definition inference {V} (c : hirm_call V) : Prop :=
  match c with HMove _ _ _ _ | HTransition _ _ _ | HTransitionAll _ _ | HIrmStep _ _ _ _ => True | _ => False end.
