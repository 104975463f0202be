(** Specification vocabulary for the HIRM schema of a PClean schema. *)
From Coq Require Import String Ascii.
From stdpp Require Import gmap strings list sorting.
From Verif Require Import M_base M_irm M_text M_schema M_pclean_io M_gendb S_gendb.
Local Open Scope string_scope.

(** What a joint name stands for: a distribution, an emission, and the type of both. *)
Definition joint_meaning (j : string) : option (dist_enum * emis_enum * obs_type) :=
  match j with
  | "bool" => Some (DBernoulli, ESometimesBitflip, BoolType)
  | "categorical" => Some (DCategorical, ESometimesCategorical, IntType)
  | "real" => Some (DNormal, ESometimesGaussian, DoubleType)
  | "string" => Some (DBigram, EBigramString, StringType)
  | "stringcat" => Some (DStringcat, EBigramString, StringType)
  | "typo_int" => Some (DStringSkellam, EBigramString, StringType)
  | "typo_nat" => Some (DStringNat, EBigramString, StringType)
  | "typo_real" => Some (DStringNormal, EBigramString, StringType)
  | _ => None
  end.

(** Names of classes, variables and query fields are identifiers, without colons. *)
Definition no_colon (s : string) : Prop := ":"%char ∉ list_ascii_of_string s.

(** From class [c] the reference fields [fs] lead through the classes [ks] (the first of
    them is [c]) to class [z]. *)
Inductive path_goes (cs : gmap string pclass) : string -> list string -> list string -> string -> Prop :=
| PG_here c : path_goes cs c [] [] c
| PG_step c f k fs ks z : refers cs c f k -> path_goes cs k fs ks z -> path_goes cs c (f :: fs) (c :: ks) z.
(** Class [z] has the attribute [v], of the joint name [j] with the parameters [ps]. *)
Definition attribute (cs : gmap string pclass) (z v j : string) (ps : gmap string string) : Prop :=
  exists cl, cs !! z = Some cl /\ cl !! v = Some (PScalar j ps).
(** Query field [f] is the attribute [v] of class [z], which the record class reaches by the
    reference fields [fs] through the classes [ks]. *)
Definition queries (s : pschema) (f : string) (fs ks : list string) (z v : string) : Prop :=
  pq_fields (ps_query s) !! f = Some (fs ++ [v])%list /\ path_goes (ps_classes s) (pq_record (ps_query s)) fs ks z.

Record well_formed (s : pschema) : Prop := {
  wf_closed : closed_schema (ps_classes s);
  wf_joints : forall c v j ps, attribute (ps_classes s) c v j ps -> is_Some (joint_meaning j);
  wf_record : is_Some (ps_classes s !! pq_record (ps_query s));
  wf_paths : forall f path, pq_fields (ps_query s) !! f = Some path ->
    exists fs ks z v j ps, queries s f fs ks z v /\ attribute (ps_classes s) z v j ps;
  wf_classes : forall c, is_Some (ps_classes s !! c) -> no_colon c;
  wf_vars : forall c cl v, ps_classes s !! c = Some cl -> is_Some (cl !! v) -> no_colon v;
  wf_fields : forall f, is_Some (pq_fields (ps_query s) !! f) -> no_colon f;
}.
(** No attribute of the record class is queried twice. *)
Definition record_queried_once (s : pschema) : Prop :=
  forall f f' v, pq_fields (ps_query s) !! f = Some [v] -> pq_fields (ps_query s) !! f' = Some [v] -> f = f'.

Section Relations.
Variables (only_final record_is_clean : bool) (s : pschema) (dm : gmap string (list string)).
Notation cs := (ps_classes s).
Notation rc := (pq_record (ps_query s)).
(** The domains of a class. *)
Definition doms (c : string) : list string := default [] (dm !! c).

(** The relations of the HIRM, and what they are.  [D] selects the query fields considered. *)
Inductive relation_of (D : string -> Prop) : string -> bool * decl -> Prop :=
(* every attribute [v] of every class [c] is an unobserved clean relation "c:v" over the
   domains of [c], unless it is an attribute of the record class that a field renames *)
| R_attribute c v j ps d e t : attribute cs c v j ps -> joint_meaning j = Some (d, e, t) ->
    ~ (record_is_clean = true /\ c = rc /\ exists f, D f /\ pq_fields (ps_query s) !! f = Some [v]) ->
    relation_of D (c +:+ ":" +:+ v) (false, Clean (doms c) (DistSpec d t ps))
(* a field that queries an attribute of the record class is that clean relation, observed *)
| R_record_clean f v j ps d e t : D f -> record_is_clean = true -> pq_fields (ps_query s) !! f = Some [v] ->
    attribute cs rc v j ps -> joint_meaning j = Some (d, e, t) ->
    relation_of D f (true, Clean (doms rc) (DistSpec d t ps))
(* or an emission of it *)
| R_record_noisy f v j ps d e t : D f -> record_is_clean = false -> pq_fields (ps_query s) !! f = Some [v] ->
    attribute cs rc v j ps -> joint_meaning j = Some (d, e, t) ->
    relation_of D f (true, NoisyOf (doms rc) (EmisSpec e t ps) (rc +:+ ":" +:+ v))
(* a field that goes through reference fields: a single emission of the attribute *)
| R_final f fs ks z v j ps d e t : D f -> only_final = true -> queries s f fs ks z v -> fs <> [] ->
    attribute cs z v j ps -> joint_meaning j = Some (d, e, t) ->
    relation_of D f (true, NoisyOf (doms z ++ reverse ks) (EmisSpec e t ps) (z +:+ ":" +:+ v))
(* or one emission for each class of the path; the one for the record class is observed
   and has the name of the field, the others are "class::field" *)
| R_chain f fs k1 k k2 z v j ps d e t : D f -> only_final = false -> queries s f fs (k1 ++ k :: k2) z v ->
    attribute cs z v j ps -> joint_meaning j = Some (d, e, t) ->
    relation_of D (match k1 with [] => f | _ => k +:+ "::" +:+ f end)
      (match k1 with [] => true | _ => false end,
       NoisyOf (doms z ++ reverse k2 ++ [k]) (EmisSpec e t ps)
         (match k2 with [] => z +:+ ":" +:+ v | k' :: _ => k' +:+ "::" +:+ f end)).
End Relations.

(** The links of an item vector over the domains [ds] fill it: each leads from an entity to
    an earlier one of the class that the field refers to, and every entity but the last is
    the target of exactly one. *)
Record links_fill (cs : gmap string pclass) (ds : list string) (r : links) : Prop := {
  lf_sound : forall i f j, link r i f = Some j -> j < i /\ exists k k', ds !! i = Some k /\ ds !! j = Some k' /\ refers cs k f k';
  lf_covered : forall j, S j < length ds -> exists i f, link r i f = Some j;
  lf_unique : forall i i' f f' j, link r i f = Some j -> link r i' f' = Some j -> i = i' /\ f = f';
}.
