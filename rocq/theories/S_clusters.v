(** Specification vocabulary for cluster files. *)
From Coq Require Import String Ascii.
From stdpp Require Import gmap sorting strings list.
From Coq Require Import ZArith Reals.
From Verif Require Import M_base M_crp M_domain M_text M_irm M_hirm M_clusters S_crp S_relation S_hirm.
Local Open Scope nat_scope.

(** A name that is one word. *)
Definition plain (x : string) : Prop := x <> EmptyString /\ forall c, c ∈ txt x -> isspace c = false.
(** A name that [load_clusters_hirm] takes for that of a domain. *)
Definition domain_like (x : string) : Prop :=
  (forall c, c ∈ txt x -> ascii7 c = true) /\ (exists c, c ∈ txt x /\ isdigit c = false) /\ take 4 (txt x) <> txt "irm=".
Definition table_number (t : Z) : Prop := (0 <= t < 2 ^ 31)%Z.
Definition in_range (t : Z) : Prop := (- 2 ^ 31 <= t < 2 ^ 31)%Z.
(** The two maps of an encoding are inverse. *)
Definition decodes (fwd : gmap string (gmap string Z)) (rev : gmap string (gmap Z string)) : Prop :=
  forall d i x, (exists m, fwd !! d = Some m /\ m !! x = Some i) <-> exists m, rev !! d = Some m /\ m !! i = Some x.

(** [l] lists the names of the entities [s] of domain [d], in order and once. *)
Definition names_of (rev : gmap string (gmap Z string)) (d : string) (s : gset Z) (l : list string) : Prop :=
  Sorted str_le l /\ NoDup l /\ forall x, x ∈ l <-> exists i m, i ∈ s /\ rev !! d = Some m /\ m !! i = Some x.
(** The clusters of a clustering: those of every domain, by the names of their members.  A
    domain without entities does not appear. *)
Record shows (rev : gmap string (gmap Z string)) (A : clustering) (cl : clusters) : Prop := {
  sh_tables : forall d t l, (exists m, cl !! d = Some m /\ m !! t = Some l) <->
    exists a, A !! d = Some a /\ customers_at a t <> ∅ /\ names_of rev d (customers_at a t) l;
  sh_nonempty : forall d m, cl !! d = Some m -> m <> ∅;
}.
(** Every entity has a name, which is one word, and domain names are words. *)
Definition printable_names (rev : gmap string (gmap Z string)) (A : clustering) : Prop :=
  forall d a, A !! d = Some a -> plain d /\ forall i t, a !! i = Some t -> exists m x, rev !! d = Some m /\ m !! i = Some x /\ plain x.
Definition table_numbers (P : Z -> Prop) (A : clustering) : Prop := forall d a i t, A !! d = Some a -> a !! i = Some t -> P t.
(** [l] lists the relations of cluster [t] of a HIRM, once each. *)
Definition relations_at {V} (h : hirm V) (t : Z) (l : list string) : Prop :=
  NoDup l /\ forall name, name ∈ l <-> table_of h name = Some t.
(** What a file of a HIRM must be able to express: clusters are numbered from zero and fit an
    [int], names are words, and those of domains look like it. *)
Record hirm_printable {V} (rev : gmap string (gmap Z string)) (h : hirm V) : Prop := {
  hp_tables : forall name t, table_of h name = Some t -> table_number t;
  hp_relations : forall name, is_Some (h_code h !! name) -> plain name;
  hp_irms : forall t ir A, h_irms h !! t = Some ir -> world_holds (i_domains ir) A ->
    printable_names rev A /\ table_numbers table_number A /\ forall d, d ∈ dom A -> domain_like d;
}.
(** Entity [i] is in domain [d] of some cluster of relations. *)
Definition has_entity {V} (h : hirm V) (d : string) (i : Z) : Prop :=
  exists t ir dm tb s, is_Some (crp_tables (h_crp h) !! t) /\ h_irms h !! t = Some ir /\ i_domains ir !! d = Some dm /\
    crp_tables (dom_crp dm) !! tb = Some s /\ i ∈ s.
