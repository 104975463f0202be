(** C31: the tokenizer.  C32: schema lines and schema files. *)
From Coq Require Import String Ascii.
From stdpp Require Import gmap strings.
From Coq Require Import Lia.
From Verif Require Import M_base M_text M_parse M_schema S_parse S_schema P_parse P_text P_schema.
Local Open Scope nat_scope.

(** * C31 *)

(** On seven-bit text without NUL the tokenizer accepts exactly the lines of the
    grammar, with exactly the tokens of the grammar, and rejects exactly the lines with
    an unclosed quote or an illegal character, after the tokens read so far. *)
Theorem C31_grammar line :
  (forall c, c ∈ line -> plain c) ->
  (forall ts, tokenize line = Ok (true, ts) <-> accepted line ts) /\
  (forall ts, tokenize line = Ok (false, ts) <-> rejected line ts) /\
  exists b ts, tokenize line = Ok (b, ts).
Proof.
  intros Hp.
  assert (forall c, c ∈ line -> code c <> 0) as Hn by (intros c Hc; specialize (Hp c Hc); unfold plain in Hp; lia).
  pose proof (tokenize_sound line) as Hs.
  split_and!.
  - intros ts. split; [|apply tokenize_accepted]. intros H. rewrite H in Hs. by apply Hs.
  - intros ts. split; [|by apply tokenize_rejected]. intros H. rewrite H in Hs. by apply Hs.
  - destruct (tokenize line) as [[b ts]| | | | |]; simpl in Hs; try done; [by eauto|].
    destruct Hs as (c & Hc & Hh). specialize (Hp c Hc). unfold plain, high in *. lia.
Qed.
Print Assumptions C31_grammar.

Definition C31_line : text := txt "likes ~ categorical[k=5](person, 'good thing') # who".
Definition C31_tokens : list token :=
  [ident (txt "likes"); sym "~"; ident (txt "categorical"); sym "["; ident (txt "k"); sym "=";
   Tok TNumber (txt "5"); sym "]"; sym "("; ident (txt "person"); sym ","; Tok TString (txt "good thing"); sym ")"].
Example C31_grammar_example :
  Forall plain C31_line /\ tokenize C31_line = Ok (true, C31_tokens) /\
  tokenize (txt "a 'b") = Ok (false, [ident (txt "a")]) /\ tokenize (txt "a%") = Ok (false, [ident (txt "a")]).
Proof. split_and!; [|by vm_compute..]. unfold C31_line, plain. repeat constructor; vm_compute; lia. Qed.

(** A line has at most one reading, so the tokens are determined by the text. *)
Theorem C31_unambiguous line ts ts' : accepted line ts -> accepted line ts' -> ts = ts'.
Proof. intros H%tokenize_accepted H'%tokenize_accepted. congruence. Qed.
Print Assumptions C31_unambiguous.
Example C31_unambiguous_example : accepted (render C31_tokens) C31_tokens.
Proof.
  apply render_accepted. unfold C31_tokens.
  assert (forall t, match t_type t with
    | TIdent => starts (fun c => letter c \/ c = "_"%char) (t_val t) /\ Forall name_char (t_val t)
    | TNumber => starts digit (t_val t) /\ Forall number_char (t_val t)
    | TSymbol => exists c, t_val t = [c] /\ punctuation c
    | TString => "'"%char ∉ t_val t end -> writable t) as Hw.
  { intros t Ht. unfold writable, spells. destruct (t_type t); [by exists (t_val t)..|].
    exists (["'"%char] ++ t_val t ++ ["'"%char]), "'"%char. split; [by right|done]. }
  repeat (apply Forall_cons; split); [..|by apply Forall_nil]; apply Hw; cbn [t_type t_val ident sym].
  all: match goal with
    | |- _ /\ _ => split; [eexists _, _; split; [reflexivity|]; chars|repeat (apply Forall_cons; split); [..|by apply Forall_nil]; chars]
    | |- exists _, _ => eexists; split; [reflexivity|]; chars
    | _ => apply (bool_decide_unpack _); vm_compute; exact I
    end.
Qed.

(** Writing a token list out and tokenizing it gives the list back. *)
Theorem C31_round_trip ts : Forall writable ts -> tokenize (render ts) = Ok (true, ts).
Proof. intros H. by apply tokenize_accepted, render_accepted. Qed.
Print Assumptions C31_round_trip.
Example C31_round_trip_example : tokenize (render C31_tokens) = Ok (true, C31_tokens).
Proof. by vm_compute. Qed.

(** Nothing is lost: the line is the texts of the tokens, in order, with white space in
    between and a comment at the end.  ([reads] says so; spelled out for a line of which
    the comment and white space outside quotes have been removed:) *)
Theorem C31_nothing_lost line ts :
  (forall c, c ∈ line -> plain c) -> tokenize line = Ok (true, ts) ->
  exists (gaps pieces : list text) (rest : text),
    length gaps = S (length ts) /\ Forall (Forall white) gaps /\
    Forall2 spells ts pieces /\
    (rest = [] \/ starts (eq "#"%char) rest) /\
    line = concat (zip_with app gaps pieces) ++ default [] (last gaps) ++ rest.
Proof.
  intros Hp H. apply (C31_grammar line Hp) in H as (rest & Hr & He). clear Hp.
  induction Hr as [l|c l ts rest Hw Hr IH|t s l ts rest Hs Hb Hr IH].
  - exists [[]], [], l. split_and!; try done. by repeat constructor.
  - destruct (IH He) as (gaps & pieces & rest' & Hlen & Hg & Hp & He' & ->).
    destruct gaps as [|g gaps]; [done|]. apply Forall_cons in Hg as [Hg1 Hg2].
    exists ((c :: g) :: gaps), pieces, rest'. split_and!; try done.
    + constructor; [by constructor|done].
    + destruct pieces as [|p pieces]; simpl.
      * destruct gaps as [|g' gaps]; [done|]. apply Forall2_nil_inv_r in Hp. subst. done.
      * destruct gaps as [|g' gaps]; [|done]. apply Forall2_length in Hp. simpl in *. lia.
  - destruct (IH He) as (gaps & pieces & rest' & Hlen & Hg & Hp & He' & ->).
    exists ([] :: gaps), (s :: pieces), rest'. split_and!; try done.
    + simpl. by rewrite Hlen.
    + constructor; [by constructor|done].
    + by constructor.
    + simpl. destruct gaps as [|g gaps]; [done|]. simpl. by rewrite <- app_assoc.
Qed.
Print Assumptions C31_nothing_lost.

(** Whatever the bytes of the line, tokenize returns, unless a byte of 128 or more is
    examined, which is undefined behaviour of <cctype>. *)
Theorem C31_total line :
  (exists b ts, tokenize line = Ok (b, ts)) \/ (tokenize line = UB /\ exists c, c ∈ line /\ 128 <= code c).
Proof.
  pose proof (tokenize_sound line) as Hs. destruct (tokenize line) as [[b ts]| | | | |]; simpl in Hs; try done; [left; by eauto|by right].
Qed.
Print Assumptions C31_total.

(** Two deviations from what one would expect.  A NUL byte is accepted as a symbol,
    although it is an illegal character; a UTF-8 encoded letter is undefined behaviour. *)
Theorem C31_nul_refuted :
  ~ (forall line ts, tokenize line = Ok (true, ts) -> accepted line ts).
Proof.
  intros H. specialize (H [ascii_of_nat 0] [Tok TSymbol [ascii_of_nat 0]] eq_refl).
  apply tokens_of_accepted in H. apply Forall_cons in H as [(s & Hs) _]. cbn in Hs.
  destruct Hs as (-> & c & [= <-] & Hc). apply punctuation_code in Hc. by vm_compute in Hc; repeat (apply elem_of_cons in Hc as [Hc|Hc]; [done|]); apply elem_of_nil in Hc.
Qed.
Print Assumptions C31_nul_refuted.
Theorem C31_utf8_refuted : ~ (forall line, exists b ts, tokenize line = Ok (b, ts)).
Proof. intros H. by destruct (H [ascii_of_nat 195; ascii_of_nat 169]) as (b & ts & [=]). Qed.
Print Assumptions C31_utf8_refuted.

(** A number may not begin with a dot: ".5" is a symbol and a number. *)
Theorem C31_leading_dot line ts : accepted ("."%char :: line) ts -> exists ts', ts = sym "." :: ts'.
Proof.
  intros H. apply tokenize_accepted in H. unfold tokenize in H. rewrite step_symbol in H by chars.
  destruct (tokenize_from _ line) as [[b ts']| | | | |]; try done. simpl in H. injection H as <- <-. by exists ts'.
Qed.
Print Assumptions C31_leading_dot.
Example C31_leading_dot_example : tokenize (txt ".5") = Ok (true, [sym "."; Tok TNumber (txt "5")]).
Proof. by vm_compute. Qed.

(** * C32 *)

(** Any line that reads as the tokens of a declaration (with any spacing, comment, and
    anything at all after the closing parenthesis) is understood as that relation. *)
Theorem C32_declaration line w d extra :
  accepted line (decl_tokens w ++ extra) -> well_formed w -> declares w d ->
  parse_line line = Ok (Some (str (w_name w), d)).
Proof. apply parse_line_reads. Qed.
Print Assumptions C32_declaration.

(** In particular the canonical text of the declaration. *)
Theorem C32_canonical w d :
  Forall writable (decl_tokens w) -> well_formed w -> declares w d ->
  parse_line (render (decl_tokens w)) = Ok (Some (str (w_name w), d)).
Proof.
  intros Hw Hf Hd. apply (C32_declaration _ w d []); [|done..]. rewrite app_nil_r. by apply render_accepted.
Qed.
Print Assumptions C32_canonical.

(** Conversely a line that is understood as a relation consists of the token texts of a
    declaration of that relation (the reader does not look at the type of every token,
    so that for instance a quoted "," separates domains), perhaps followed by more. *)
Theorem C32_only_declarations line n d :
  (forall c, c ∈ line -> code c <> 0) ->
  parse_line line = Ok (Some (n, d)) ->
  exists ts w extra, accepted line ts /\ well_formed w /\ n = str (w_name w) /\ declares w d /\
    vals ts = vals (decl_tokens w) ++ vals extra.
Proof. apply parse_line_inv. Qed.
Print Assumptions C32_only_declarations.

Definition C32_w : written :=
  Written (txt "likes") (txt "categorical") [(txt "k", Tok TNumber (txt "5"))] None
    [ident (txt "person"); ident (txt "thing")].
Definition C32_n : written :=
  Written (txt "says") (txt "sometimes_categorical") [(txt "k", Tok TNumber (txt "5"))] (Some (txt "likes"))
    [ident (txt "person"); ident (txt "thing"); ident (txt "day")].
Definition C32_wd : decl := Clean ["person"; "thing"]%string (DistSpec DCategorical IntType {["k"%string := "5"%string]}).
Definition C32_nd : decl :=
  NoisyOf ["person"; "thing"; "day"]%string (EmisSpec ESometimesCategorical IntType {["k"%string := "5"%string]}) "likes".
Example C32_example :
  well_formed C32_w /\ declares C32_w C32_wd /\ well_formed C32_n /\ declares C32_n C32_nd /\
  parse_line (txt "likes ~ categorical[k=5](person, thing)  # comment") = Ok (Some ("likes"%string, C32_wd)) /\
  parse_line (txt "says~sometimes_categorical[k=5](likes;person,thing,day)") = Ok (Some ("says"%string, C32_nd)) /\
  parse_line (txt "   # nothing") = Ok None.
Proof.
  split_and!.
  - by eexists _, _.
  - eexists _, _. split; [constructor|done].
  - done.
  - eexists _, _. split; [constructor|done].
  - by vm_compute.
  - by vm_compute.
  - by vm_compute.
Qed.

(** Blank lines and comments declare nothing; nothing else does. *)
Theorem C32_blank line :
  (forall c, c ∈ line -> code c <> 0) -> parse_line line = Ok None <-> accepted line [].
Proof. apply parse_line_none. Qed.
Print Assumptions C32_blank.

(** A whole file of declarations of distinct names whose noisy relations extend the
    domains of their bases is read as exactly these relations; and whatever is read
    comes from a line of the file and has noisy relations extending their bases. *)
Theorem C32_file ls ws ds :
  Forall (fun l => newline ∉ l) ls ->
  Forall2 (fun l w => accepted l (decl_tokens w) /\ well_formed w) ls ws ->
  Forall2 declares ws ds ->
  NoDup (map w_name ws) ->
  bases_agree (list_to_map (zip (map (fun w => str (w_name w)) ws) ds)) ->
  load_schema (lines_of ls) = Ok (list_to_map (zip (map (fun w => str (w_name w)) ws) ds)).
Proof.
  intros Hnl Hl Hd Hnd Hb. apply load_schema_declared; [done| | |done].
  - clear Hb Hnd Hnl. revert ds Hd. induction Hl as [|l w ls ws [Ha Hw] Hl IH]; intros ds Hd.
    + apply Forall2_nil_inv_l in Hd. subst. constructor.
    + apply Forall2_cons_inv_l in Hd as (d & ds' & Hd1 & Hd & ->). cbn [map zip zip_with]. constructor; [|by apply IH].
      apply (C32_declaration l w d []); [by rewrite app_nil_r|done..].
  - apply Forall2_length in Hd. rewrite fst_zip by (rewrite map_length; lia).
    clear -Hnd. induction ws as [|w ws IH]; [constructor|]. cbn [map] in *. apply NoDup_cons in Hnd as [H1 H2].
    apply NoDup_cons. split; [|by apply IH]. rewrite elem_of_list_In, in_map_iff. intros (w' & E & Hin). apply H1.
    apply elem_of_list_In, in_map_iff.
    exists w'. split; [by apply str_inj|done].
Qed.
Print Assumptions C32_file.
Theorem C32_file_origin contents schema :
  (forall c, c ∈ contents -> code c <> 0) ->
  load_schema contents = Ok schema ->
  bases_agree schema /\
  forall n d, schema !! n = Some d -> exists l ts w extra,
    l ∈ getlines newline contents /\ accepted l ts /\ well_formed w /\ n = str (w_name w) /\ declares w d /\
    vals ts = vals (decl_tokens w) ++ vals extra.
Proof.
  intros Hn H. apply load_schema_inv in H as [Hb Ho]. split; [done|]. intros n d Hd.
  destruct (Ho n d Hd) as (l & Hl & Hp). exists l. apply parse_line_inv in Hp as (ts & w & extra & ?).
  - by exists ts, w, extra.
  - intros c Hc. apply Hn. by eapply getlines_sub.
Qed.
Print Assumptions C32_file_origin.

Definition C32_text : text :=
  txt "likes ~ categorical[k=5](person, thing)" ++ [newline] ++ [newline] ++
  txt "says ~ sometimes_categorical[k=5](likes; person, thing, day)" ++ [newline].
Example C32_file_example :
  match load_schema C32_text with
  | Ok s => map_to_list s = [("says"%string, C32_nd); ("likes"%string, C32_wd)] \/
            map_to_list s = [("likes"%string, C32_wd); ("says"%string, C32_nd)]
  | _ => False
  end.
Proof. vm_compute. first [left; reflexivity | right; reflexivity]. Qed.

(** The reader indexes past the end of the token list exactly when the tokens of the
    line stop in the middle of a declaration; so no complete declaration is affected... *)
Theorem C32_out_of_bounds line :
  (forall c, c ∈ line -> plain c) -> parse_line line = UB ->
  exists ts w more, accepted line ts /\ more <> [] /\ well_formed w /\ vals ts ++ more = vals (decl_tokens w).
Proof.
  intros Hp H. apply parse_line_ub in H as [(c & Hc & Hh)|(ts & w & more & Ht & H)].
  - specialize (Hp c Hc). unfold plain, high in *. lia.
  - exists ts, w, more. split; [|done]. by apply (C31_grammar line Hp).
Qed.
Print Assumptions C32_out_of_bounds.
(** ... but some truncated lines are: the reader does not reject them. *)
Theorem C32_no_out_of_bounds_refuted :
  ~ (forall line, (forall c, c ∈ line -> plain c) -> parse_line line <> UB).
Proof.
  intros H. apply (H (txt "likes ~ bernoulli")); [|by vm_compute].
  apply Forall_forall. unfold plain. repeat constructor; vm_compute; lia.
Qed.
Print Assumptions C32_no_out_of_bounds_refuted.
Example C32_truncated :
  Forall (fun s => parse_line (txt s) = UB)
    ["likes ~ bernoulli"; "likes ~ categorical[k="; "likes ~ categorical[k=5"; "likes ~ bernoulli(person";
     "likes ~ bernoulli(person,"; "likes ~ bernoulli(person, thing"; "says ~ bigram(likes;"]%string.
Proof. repeat constructor; by vm_compute. Qed.
(** A noisy relation with fewer domains than its base also reads out of bounds. *)
Example C32_short_noisy :
  load_schema (txt "r ~ normal(a, b)" ++ [newline] ++ txt "s ~ gaussian(r; a)") = UB.
Proof. by vm_compute. Qed.
