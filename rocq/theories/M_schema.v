(** Model of the schema reader: cxx/util_io.cc:17-172, and of the constructors of
    DistributionSpec (cxx/distributions/get_distribution.cc:20-72) and EmissionSpec
    (cxx/emissions/get_emission.cc:18-46). *)
From Coq Require Import String Ascii.
From stdpp Require Import gmap strings.
From Verif Require Import M_base M_text M_parse.
Local Open Scope nat_scope.

(** util_observation.hh:15. *)
Inductive obs_type := BoolType | DoubleType | IntType | StringType.
Global Instance obs_type_eq_dec : EqDecision obs_type. Proof. solve_decision. Defined.

(** distributions/get_distribution.hh:16-26, :28-37. *)
Inductive dist_enum :=
  DBernoulli | DBigram | DCategorical | DNormal | DSkellam | DStringcat
| DStringSkellam | DStringNat | DStringNormal.
Global Instance dist_enum_eq_dec : EqDecision dist_enum. Proof. solve_decision. Defined.
Record dist_spec := DistSpec {
  ds_dist : dist_enum; ds_type : obs_type; ds_args : gmap string string }.

(** get_distribution.cc:42-71: names of distributions. *)
Definition dist_of_name (n : string) : option (dist_enum * obs_type) :=
  if bool_decide (n = "bernoulli"%string) then Some (DBernoulli, BoolType)
  else if bool_decide (n = "bigram"%string) then Some (DBigram, StringType)
  else if bool_decide (n = "categorical"%string) then Some (DCategorical, IntType)
  else if bool_decide (n = "normal"%string) then Some (DNormal, DoubleType)
  else if bool_decide (n = "skellam"%string) then Some (DSkellam, IntType)
  else if bool_decide (n = "stringcat"%string) then Some (DStringcat, StringType)
  else if bool_decide (n = "string_nat"%string) then Some (DStringNat, StringType)
  else if bool_decide (n = "string_normal"%string) then Some (DStringNormal, StringType)
  else if bool_decide (n = "string_skellam"%string) then Some (DStringSkellam, StringType)
  else None.

(** get_distribution.cc:24-41: arguments written after the name, "name(a=x,b=y)". *)
Definition split_at (c : ascii) (l : text) : text * text := span (fun d => negb (ceqb d c)) l.
Definition one_arg (m : gmap string string) (part : text) : outcome (gmap string string) :=
  match split_at "="%char part with
  | (_, []) => AssertFail                                             (* :35 *)
  | (k, _ :: v) => Ok (<[str k := str v]> m)
  end.
Definition dist_spec_new (dist_str : text) (args : gmap string string) : outcome dist_spec :=
  let '(name, args_str) := split_at "("%char dist_str in
  let* args' :=
    match args_str with
    | [] => Ok args
    | _ =>
      let* _ := assert_ (bool_decide (last args_str = Some ")"%char)) in   (* :30 *)
      foldM one_arg args (getlines ","%char (take (length args_str - 2) (drop 1 args_str)))
    end in
  match dist_of_name (str name) with
  | Some (d, t) => Ok (DistSpec d t args')
  | None => Exits
  end.

(** emissions/get_emission.hh:20-37, get_emission.cc:18-46. *)
Inductive emis_enum :=
  EBigramString | EGaussian | ESimpleString | ESometimesBitflip | ESometimesCategorical | ESometimesGaussian.
Global Instance emis_enum_eq_dec : EqDecision emis_enum. Proof. solve_decision. Defined.
Record emis_spec := EmisSpec {
  es_emis : emis_enum; es_type : obs_type; es_args : gmap string string }.
Definition emis_of_name (n : string) : option (emis_enum * obs_type) :=
  if bool_decide (n = "bigram"%string) then Some (EBigramString, StringType)
  else if bool_decide (n = "gaussian"%string) then Some (EGaussian, DoubleType)
  else if bool_decide (n = "simple_string"%string) then Some (ESimpleString, StringType)
  else if bool_decide (n = "sometimes_bitflip"%string) then Some (ESometimesBitflip, BoolType)
  else if bool_decide (n = "sometimes_categorical"%string) then Some (ESometimesCategorical, IntType)
  else if bool_decide (n = "sometimes_gaussian"%string) then Some (ESometimesGaussian, DoubleType)
  else None.
Definition emis_spec_new (name : text) (args : gmap string string) : outcome emis_spec :=
  match emis_of_name (str name) with
  | Some (e, t) => Ok (EmisSpec e t args)
  | None => Exits
  end.

(** relation.hh [T_clean_relation], [T_noisy_relation]; [is_observed] is set to false
    here for every relation and is modelled by [load_observations]. *)
Inductive decl :=
| Clean (domains : list string) (spec : dist_spec)
| NoisyOf (domains : list string) (spec : emis_spec) (base : string).
Definition decl_domains (d : decl) : list string :=
  match d with Clean ds _ => ds | NoisyOf ds _ _ => ds end.

(** util_io.cc:39-66: the macros.  The remaining tokens stand for the index [i]. *)
Definition type_check (ty : token_type) (l : list token) : outcome (text * list token) :=
  match l with
  | [] => AssertFail
  | t :: l' => if bool_decide (t_type t = ty) then Ok (t_val t, l') else AssertFail
  end.
Definition val_check (v : text) (l : list token) : outcome (list token) :=
  match l with
  | [] => AssertFail
  | t :: l' => if teqb (t_val t) v then Ok l' else AssertFail
  end.
Definition val_is (t : token) (s : string) : bool := teqb (t_val t) (txt s).

(** util_io.cc:98-120: the parameter list after "[". *)
Fixpoint params_loop (m : gmap string string) (l : list token) : outcome (gmap string string * list token) :=
  match l with
  | [] => AssertFail                                                   (* :100 *)
  | k :: l1 =>
    if bool_decide (t_type k = TIdent) then
      match l1 with
      | [] => AssertFail                                               (* :103 *)
      | e :: l2 =>
        if val_is e "=" then
          match l2 with
          | [] => UB                                                   (* :106 tokens[i++] *)
          | v :: l3 =>
            let m' := <[str (t_val k) := str (t_val v)]> m in
            match l3 with
            | [] => UB                                                 (* :108 tokens[i] *)
            | s :: l4 =>
              if val_is s "," then params_loop m' l4
              else if val_is s "]" then Ok (m', l4)
              else Exits                                               (* :115 *)
            end
          end
        else AssertFail
      end
    else AssertFail
  end.

(** util_io.cc:137-148: the domain list.  Tokens after the ")" are ignored. *)
Fixpoint domains_loop (l : list token) : outcome (list string) :=
  match l with
  | [] => UB                                                           (* :138 *)
  | d :: l1 =>
    match l1 with
    | [] => UB                                                         (* :140 *)
    | s :: l2 =>
      if val_is s "," then let* ds := domains_loop l2 in Ok (str (t_val d) :: ds)
      else if val_is s ")" then Ok [str (t_val d)]
      else Exits                                                       (* :146 *)
    end
  end.

(** util_io.cc:77-168: one line.  [None] for a line without tokens. *)
Definition parse_decl (l : list token) : outcome (option (string * decl)) :=
  match l with
  | [] => Ok None
  | _ =>
    let* (relname, l) := type_check TIdent l in
    let* l := val_check (txt "~") l in
    let* (dist, l) := type_check TIdent l in
    let* (params, l) :=
      match l with
      | [] => UB                                                       (* :97 tokens[3] *)
      | t :: l' => if val_is t "[" then params_loop ∅ l' else Ok (∅, l)
      end in
    let* l := val_check (txt "(") l in
    let* (first, l1) := type_check TIdent l in
    match l1 with
    | [] => UB                                                         (* :132 tokens[i + 1] *)
    | s :: l2 =>
      if val_is s ";" then
        let* ds := domains_loop l2 in
        let* spec := emis_spec_new dist params in
        Ok (Some (str relname, NoisyOf ds spec (str first)))
      else
        let* ds := domains_loop l in
        let* spec := dist_spec_new dist params in
        Ok (Some (str relname, Clean ds spec))
    end
  end.
Definition parse_line (line : text) : outcome (option (string * decl)) :=
  let* (ok, ts) := tokenize line in
  let* _ := assert_ ok in                                              (* :77 *)
  parse_decl ts.

(** util_io.cc:17-36 [verify_noisy_relation_domains]. *)
Fixpoint check_prefix (base ds : list string) : outcome unit :=
  match base, ds with
  | [], _ => Ok tt
  | _ :: _, [] => UB                                                   (* :28 trel.domains[i] *)
  | b :: base', d :: ds' =>
    let* _ := assert_ (bool_decide (b = d)) in check_prefix base' ds'
  end.
Definition verify_one (schema : gmap string decl) (_ : unit) (kd : string * decl) : outcome unit :=
  match kd.2 with
  | Clean _ _ => Ok tt
  | NoisyOf ds _ base =>
    let* b := at_ (schema !! base) in
    check_prefix (decl_domains b) ds
  end.
(** The code visits the relations in the order of their names; the model in another
    fixed order, which only matters for which of several failures is met first. *)
Definition verify_noisy_relation_domains (schema : gmap string decl) : outcome unit :=
  foldM (verify_one schema) tt (map_to_list schema).

(** util_io.cc:68-172 [load_schema], from the contents of the file. *)
Definition load_line (schema : gmap string decl) (line : text) : outcome (gmap string decl) :=
  let* o := parse_line line in
  match o with
  | None => Ok schema
  | Some (n, d) => Ok (<[n := d]> schema)
  end.
Definition load_schema (contents : text) : outcome (gmap string decl) :=
  let* schema := foldM load_line ∅ (getlines newline contents) in
  let* _ := verify_noisy_relation_domains schema in
  Ok schema.
