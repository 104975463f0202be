(** The text of a schema file, independently of the reader. *)
From Coq Require Import String Ascii.
From stdpp Require Import gmap strings.
From Verif Require Import M_base M_text M_parse M_schema S_parse.
Local Open Scope nat_scope.

(** What a user writes: "name ~ dist[k=v, ...](D1, D2)" or
    "name ~ emission[k=v, ...](base; D1, D2)". *)
Record written := Written {
  w_name : text;
  w_dist : text;
  w_params : list (text * token);
  w_base : option text;
  w_domains : list token;
}.
Definition ident (s : text) : token := Tok TIdent s.
Definition sym (c : ascii) : token := Tok TSymbol [c].
Fixpoint separated (sep : token) (ll : list (list token)) : list token :=
  match ll with
  | [] => []
  | [l] => l
  | l :: ll' => l ++ sep :: separated sep ll'
  end.
Definition param_tokens (kv : text * token) : list token := [ident kv.1; sym "="; kv.2].
Definition params_tokens (ps : list (text * token)) : list token := separated (sym ",") (map param_tokens ps).
Definition header_tokens (w : written) : list token := [ident (w_name w); sym "~"; ident (w_dist w)].
Definition bracket_tokens (w : written) : list token :=
  match w_params w with [] => [] | ps => sym "[" :: params_tokens ps ++ [sym "]"] end.
Definition domain_tokens (w : written) : list token :=
  match w_base w with Some b => [ident b; sym ";"] | None => [] end
  ++ separated (sym ",") (map (fun d => [d]) (w_domains w)) ++ [sym ")"].
Definition decl_tokens (w : written) : list token :=
  header_tokens w ++ bracket_tokens w ++ sym "(" :: domain_tokens w.

(** A declaration names at least one domain; the first is an identifier. *)
Definition well_formed (w : written) : Prop :=
  match w_base w with
  | Some b => w_domains w <> []
  | None => exists d ds, w_domains w = d :: ds /\ t_type d = TIdent
  end.
(** The parameters: a later definition of the same parameter replaces an earlier one. *)
Definition params_map (ps : list (text * token)) : gmap string string :=
  foldl (fun m kv => <[str kv.1 := str (t_val kv.2)]> m) ∅ ps.
Definition domain_names (w : written) : list string := map (fun d => str (t_val d)) (w_domains w).

(** The distributions and emissions of the documentation, with the type of their values. *)
Inductive known_dist : string -> dist_enum -> obs_type -> Prop :=
| k_bernoulli : known_dist "bernoulli" DBernoulli BoolType
| k_bigram : known_dist "bigram" DBigram StringType
| k_categorical : known_dist "categorical" DCategorical IntType
| k_normal : known_dist "normal" DNormal DoubleType
| k_skellam : known_dist "skellam" DSkellam IntType
| k_stringcat : known_dist "stringcat" DStringcat StringType
| k_string_nat : known_dist "string_nat" DStringNat StringType
| k_string_normal : known_dist "string_normal" DStringNormal StringType
| k_string_skellam : known_dist "string_skellam" DStringSkellam StringType.
Inductive known_emission : string -> emis_enum -> obs_type -> Prop :=
| k_ebigram : known_emission "bigram" EBigramString StringType
| k_gaussian : known_emission "gaussian" EGaussian DoubleType
| k_simple_string : known_emission "simple_string" ESimpleString StringType
| k_sometimes_bitflip : known_emission "sometimes_bitflip" ESometimesBitflip BoolType
| k_sometimes_categorical : known_emission "sometimes_categorical" ESometimesCategorical IntType
| k_sometimes_gaussian : known_emission "sometimes_gaussian" ESometimesGaussian DoubleType.

(** The relation a declaration stands for. *)
Definition declares (w : written) (d : decl) : Prop :=
  match w_base w with
  | None => exists e t, known_dist (str (w_dist w)) e t /\
      d = Clean (domain_names w) (DistSpec e t (params_map (w_params w)))
  | Some b => exists e t, known_emission (str (w_dist w)) e t /\
      d = NoisyOf (domain_names w) (EmisSpec e t (params_map (w_params w))) (str b)
  end.

(** The text of the tokens, forgetting how they were classified. *)
Definition vals (ts : list token) : list text := map t_val ts.

(** Every noisy relation has a declared base whose domains begin its own. *)
Definition bases_agree (schema : gmap string decl) : Prop :=
  forall n ds sp b, schema !! n = Some (NoisyOf ds sp b) ->
    exists bd, schema !! b = Some bd /\ decl_domains bd `prefix_of` ds.

(** A file: lines ended by newlines. *)
Definition lines_of (ls : list text) : text := concat (map (fun l => l ++ [newline]) ls).
