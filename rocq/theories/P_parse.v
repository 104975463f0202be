(** The tokenizer follows the grammar of S_parse.v. *)
From Coq Require Import String Ascii.
From stdpp Require Import base list strings sets.
From Coq Require Import Lia.
From Verif Require Import M_base M_text M_parse S_parse.
Local Open Scope nat_scope.

(** ** Characters *)
Lemma code_inj c d : code c = code d -> c = d.
Proof. unfold code. intros H. rewrite <- (ascii_nat_embedding c), <- (ascii_nat_embedding d). congruence. Qed.
Lemma code_bound c : code c < 256.
Proof. apply nat_ascii_bounded. Qed.
Lemma eq_code c d : c = d <-> code c = code d.
Proof. split; [congruence|apply code_inj]. Qed.
Lemma ceqb_true c d : ceqb c d = true <-> c = d.
Proof. unfold ceqb. apply bool_decide_eq_true. Qed.
Lemma ceqb_false c d : ceqb c d = false <-> c <> d.
Proof. unfold ceqb. apply bool_decide_eq_false. Qed.
Lemma ceqb_refl c : ceqb c c = true.
Proof. by apply ceqb_true. Qed.
Lemma in_chars_true c l : in_chars c l = true <-> c ∈ l.
Proof.
  unfold in_chars. rewrite existsb_exists, elem_of_list_In. split.
  - intros (x & Hx & He). apply ceqb_true in He. by subst.
  - intros H. exists c. split; [done|apply ceqb_refl].
Qed.

(** Turn statements about characters into arithmetic on codes. *)
Ltac char_codes :=
  repeat match goal with
  | |- context [@eq ascii ?a ?b] => rewrite (eq_code a b)
  | H : context [@eq ascii ?a ?b] |- _ => rewrite (eq_code a b) in H
  end.
Ltac nat_lits :=
  repeat match goal with
  | |- context [code (Ascii ?a ?b ?c ?d ?e ?f ?g ?h)] =>
    let v := eval vm_compute in (code (Ascii a b c d e f g h)) in
    change (code (Ascii a b c d e f g h)) with v
  | H : context [code (Ascii ?a ?b ?c ?d ?e ?f ?g ?h)] |- _ =>
    let v := eval vm_compute in (code (Ascii a b c d e f g h)) in
    change (code (Ascii a b c d e f g h)) with v in H
  | |- context [code (ascii_of_nat ?n)] =>
    let v := eval vm_compute in (code (ascii_of_nat n)) in change (code (ascii_of_nat n)) with v
  | H : context [code (ascii_of_nat ?n)] |- _ =>
    let v := eval vm_compute in (code (ascii_of_nat n)) in change (code (ascii_of_nat n)) with v in H
  end.
Definition symbol_codes : list nat := [126;40;41;91;93;123;125;60;62;46;44;58;59;61;43;42;45;47].
Lemma punctuation_code c : punctuation c <-> code c ∈ symbol_codes.
Proof.
  unfold punctuation, symbol_codes. rewrite !elem_of_cons, !elem_of_nil. char_codes. nat_lits. tauto.
Qed.
Ltac chars :=
  unfold illegal, number_char, name_char, white, quote, plain in *; unfold digit, letter in *; unfold between in *;
  rewrite ?punctuation_code in *; unfold symbol_codes in *;
  rewrite ?elem_of_cons, ?elem_of_nil in *;
  char_codes; nat_lits; try lia.

Lemma isspace_spec c : isspace c = true <-> white c.
Proof.
  unfold isspace. rewrite orb_true_iff, andb_true_iff, Nat.eqb_eq, !Nat.leb_le. chars.
Qed.
Lemma isdigit_spec c : isdigit c = true <-> digit c.
Proof. unfold isdigit. rewrite andb_true_iff, !Nat.leb_le. chars. Qed.
Lemma isalnum_spec c : isalnum c = true <-> digit c \/ letter c.
Proof.
  unfold isalnum. rewrite !orb_true_iff, isdigit_spec. unfold isupper, islower.
  rewrite !andb_true_iff, !Nat.leb_le. chars.
Qed.
Lemma still_numeric_spec c : still_numeric c = true <-> number_char c.
Proof. unfold still_numeric. rewrite !orb_true_iff, isdigit_spec, !ceqb_true. chars. Qed.
Lemma still_id_spec c : still_id c = true <-> name_char c.
Proof. unfold still_id. rewrite !orb_true_iff, isalnum_spec, !ceqb_true. chars. Qed.
Lemma strchr_spec c : strchr_symbol c = true <-> punctuation c \/ code c = 0.
Proof.
  unfold strchr_symbol. rewrite orb_true_iff, in_chars_true, Nat.eqb_eq.
  change SYMBOL_CHARS with ["~"; "("; ")"; "["; "]"; "{"; "}"; "<"; ">"; "."; ","; ":"; ";"; "="; "+"; "*"; "-"; "/"]%char.
  reflexivity.
Qed.
Lemma ascii7_spec c : ascii7 c = true <-> code c < 128.
Proof. unfold ascii7. apply Nat.ltb_lt. Qed.
Lemma quote_spec c : ceqb c """"%char || ceqb c "'"%char = true <-> quote c.
Proof. rewrite orb_true_iff, !ceqb_true. reflexivity. Qed.

(** ** [span], [quoted], [extend] *)
Lemma span_spec p l a b :
  span p l = (a, b) <->
  l = a ++ b /\ Forall (fun c => p c = true) a /\ (forall c b', b = c :: b' -> p c = false).
Proof.
  split.
  - revert a b. induction l as [|c l IH]; intros a b; simpl.
    + intros [= <- <-]. split; [done|]. split; [constructor|]. intros ? ? [=].
    + destruct (p c) eqn:E.
      * destruct (span p l) as [a' b'] eqn:Es. intros [= <- <-].
        destruct (IH a' b' eq_refl) as (-> & Ha & Hb). split; [done|]. split; [by constructor|done].
      * intros [= <- <-]. split; [done|]. split; [constructor|]. by intros ? ? [= <- <-].
  - intros (-> & Ha & Hb). induction Ha as [|c a Hc Ha IH]; simpl.
    + destruct b as [|c b]; simpl; [done|]. by rewrite (Hb c b eq_refl).
    + by rewrite Hc, IH.
Qed.
Lemma quoted_some q l a b : quoted q l = Some (a, b) <-> l = a ++ q :: b /\ q ∉ a.
Proof.
  split.
  - revert a b. induction l as [|c l IH]; intros a b; simpl; [done|].
    destruct (ceqb c q) eqn:E.
    + apply ceqb_true in E. intros [= <- <-]. subst. split; [done|]. apply not_elem_of_nil.
    + apply ceqb_false in E. destruct (quoted q l) as [[a' b']|] eqn:Eq; [|done]. intros [= <- <-].
      destruct (IH a' b' eq_refl) as [-> Hn]. split; [done|]. rewrite not_elem_of_cons. split; [congruence|done].
  - intros [-> Hn]. induction a as [|c a IH]; simpl.
    + by rewrite ceqb_refl.
    + apply not_elem_of_cons in Hn as [Hc Hn]. rewrite (proj2 (ceqb_false c q)) by congruence.
      by rewrite IH.
Qed.
Lemma quoted_none q l : quoted q l = None <-> q ∉ l.
Proof.
  split.
  - induction l as [|c l IH]; simpl; [intros _; apply not_elem_of_nil|].
    destruct (ceqb c q) eqn:E; [done|]. apply ceqb_false in E.
    destruct (quoted q l) as [[? ?]|]; [done|]. intros _. rewrite not_elem_of_cons. split; [congruence|by apply IH].
  - induction l as [|c l IH]; simpl; [done|]. rewrite not_elem_of_cons. intros [Hc Hn].
    rewrite (proj2 (ceqb_false c q)) by congruence. by rewrite IH.
Qed.

Definition high (c : ascii) : Prop := 128 <= code c.
Lemma extend_ok p (P : ascii -> Prop) l a b :
  (forall c, p c = true <-> P c) -> (forall c, P c -> code c < 128) ->
  extend p l = Ok (a, b) <-> l = a ++ b /\ Forall P a /\ ~ starts P b /\ ~ starts high b.
Proof.
  intros Hp H7. unfold extend.
  assert (forall c, ascii7 c && p c = true <-> P c) as Hpp.
  { intros c. rewrite andb_true_iff, ascii7_spec, Hp. specialize (H7 c). tauto. }
  split.
  - destruct (span _ l) as [a' b'] eqn:Es. apply span_spec in Es as (-> & Ha & Hb).
    assert (Forall P a') as HPa by (eapply Forall_impl; [exact Ha|]; intros c; apply Hpp).
    assert (~ starts P b') as HPb.
    { intros (c & b'' & -> & HP). apply Hpp in HP. specialize (Hb c b'' eq_refl). congruence. }
    destruct b' as [|c b'].
    + intros [= <- <-]. split_and!; [done..|]. by intros (? & ? & ? & ?).
    + destruct (ascii7 c) eqn:E; [|done]. apply ascii7_spec in E. intros [= <- <-]. split_and!; [done..|].
      intros (? & ? & [= <- <-] & Hh). unfold high in Hh. lia.
  - intros (-> & Ha & Hb & Hh).
    assert (span (fun c => ascii7 c && p c) (a ++ b) = (a, b)) as ->.
    { apply span_spec. split; [done|]. split; [eapply Forall_impl; [exact Ha|]; intros c; apply Hpp|].
      intros c b' ->. destruct (ascii7 c && p c) eqn:E; [|done]. exfalso. apply Hb. exists c, b'. split; [done|]. by apply Hpp. }
    destruct b as [|c b]; [done|]. destruct (ascii7 c) eqn:E; [done|]. exfalso. apply Hh. exists c, b. split; [done|].
    unfold high. destruct (Nat.lt_ge_cases (code c) 128) as [H|H]; [|done]. apply ascii7_spec in H. congruence.
Qed.
Lemma extend_ub p l : extend p l <> UB -> exists a b, extend p l = Ok (a, b).
Proof.
  unfold extend. destruct (span _ l) as [a [|c b]]; [by eauto|]. destruct (ascii7 c); [by eauto|done].
Qed.
Lemma extend_cases p l : (exists a b, extend p l = Ok (a, b)) \/ (extend p l = UB /\ exists c, c ∈ l /\ high c).
Proof.
  unfold extend. destruct (span _ l) as [a b] eqn:Es. apply span_spec in Es as (-> & Ha & Hb).
  destruct b as [|c b]; [by eauto|]. destruct (ascii7 c) eqn:E; [by eauto|].
  right. split; [done|]. exists c. split; [set_solver|]. unfold high.
  destruct (Nat.lt_ge_cases (code c) 128) as [H|H]; [|done]. apply ascii7_spec in H. congruence.
Qed.

Lemma number_char_7 c : number_char c -> code c < 128.
Proof. chars. Qed.
Lemma name_char_7 c : name_char c -> code c < 128.
Proof. chars. Qed.

(** ** One token at a time *)
Lemma bool_false_iff (b : bool) (P : Prop) : (b = true <-> P) -> ~ P -> b = false.
Proof. destruct b; [|done]. intros H Hn. destruct Hn. by apply H. Qed.

(** Which branch of the tokenizer a character selects. *)
Lemma step_nil fuel : tokenize_from (S fuel) [] = Ok (true, []).
Proof. reflexivity. Qed.
Lemma step_comment fuel l : tokenize_from (S fuel) ("#"%char :: l) = Ok (true, []).
Proof. reflexivity. Qed.
Lemma not_hash c : c <> "#"%char -> ceqb c "#"%char = false.
Proof. apply ceqb_false. Qed.
Ltac branch H :=
  match type of H with
  | ?b = _ => rewrite H
  end.
Lemma step_white fuel c l : white c -> tokenize_from (S fuel) (c :: l) = tokenize_from fuel l.
Proof.
  intros Hw. cbn [tokenize_from].
  rewrite not_hash by (intros ->; chars).
  rewrite (proj2 (ascii7_spec c)) by (chars). cbn [negb].
  by rewrite (proj2 (isspace_spec c) Hw).
Qed.
Lemma white_false c : ~ white c -> isspace c = false.
Proof. apply bool_false_iff, isspace_spec. Qed.
Lemma strchr_false c : ~ punctuation c -> code c <> 0 -> strchr_symbol c = false.
Proof. intros H1 H2. apply (bool_false_iff _ _ (strchr_spec c)). tauto. Qed.
Lemma quote_false c : ~ quote c -> ceqb c """"%char || ceqb c "'"%char = false.
Proof. apply bool_false_iff, quote_spec. Qed.
Lemma digit_dot_spec c : isdigit c || ceqb c "."%char = true <-> digit c \/ c = "."%char.
Proof. by rewrite orb_true_iff, isdigit_spec, ceqb_true. Qed.
Lemma alnum_spec c : isalnum c || ceqb c "_"%char = true <-> name_char c.
Proof. rewrite orb_true_iff, isalnum_spec, ceqb_true. unfold name_char. tauto. Qed.

Lemma step_symbol fuel c l :
  punctuation c -> tokenize_from (S fuel) (c :: l) = cons_tok (Tok TSymbol [c]) (tokenize_from fuel l).
Proof.
  intros Hw. cbn [tokenize_from].
  rewrite not_hash by (intros ->; chars).
  rewrite (proj2 (ascii7_spec c)) by (chars). cbn [negb].
  rewrite white_false by chars.
  by rewrite (proj2 (strchr_spec c) (or_introl Hw)).
Qed.
Lemma step_quote fuel q l :
  quote q -> tokenize_from (S fuel) (q :: l) =
    match quoted q l with
    | None => Ok (false, [])
    | Some (body, l2) => cons_tok (Tok TString body) (tokenize_from fuel l2)
    end.
Proof.
  intros Hw. cbn [tokenize_from].
  rewrite not_hash by (intros ->; chars).
  rewrite (proj2 (ascii7_spec q)) by (chars). cbn [negb].
  rewrite white_false by chars.
  rewrite strchr_false by chars.
  by rewrite (proj2 (quote_spec q) Hw).
Qed.
Lemma step_number fuel c l :
  digit c -> tokenize_from (S fuel) (c :: l) =
    let* (body, l2) := extend still_numeric l in
    cons_tok (Tok TNumber (c :: body)) (tokenize_from fuel l2).
Proof.
  intros Hw. cbn [tokenize_from].
  rewrite not_hash by (intros ->; chars).
  rewrite (proj2 (ascii7_spec c)) by (chars). cbn [negb].
  rewrite white_false by chars.
  rewrite strchr_false by chars.
  rewrite quote_false by chars.
  by rewrite (proj2 (digit_dot_spec c) (or_introl Hw)).
Qed.
Lemma step_name fuel c l :
  letter c \/ c = "_"%char -> tokenize_from (S fuel) (c :: l) =
    let* (body, l2) := extend still_id l in
    cons_tok (Tok TIdent (c :: body)) (tokenize_from fuel l2).
Proof.
  intros Hw. cbn [tokenize_from].
  rewrite not_hash by (intros ->; chars).
  rewrite (proj2 (ascii7_spec c)) by (chars). cbn [negb].
  rewrite white_false by chars.
  rewrite strchr_false by chars.
  rewrite quote_false by chars.
  rewrite (bool_false_iff _ _ (digit_dot_spec c)) by chars.
  by rewrite (proj2 (alnum_spec c)) by chars.
Qed.
Lemma step_illegal fuel c l :
  illegal c -> code c <> 0 -> code c < 128 -> tokenize_from (S fuel) (c :: l) = Ok (false, []).
Proof.
  intros (H1 & H2 & H3 & H4 & H5) H0 H7. cbn [tokenize_from].
  rewrite not_hash by done.
  rewrite (proj2 (ascii7_spec c)) by done. cbn [negb].
  rewrite white_false by done.
  rewrite strchr_false by done.
  rewrite quote_false by done.
  rewrite (bool_false_iff _ _ (digit_dot_spec c)).
  - by rewrite (bool_false_iff _ _ (alnum_spec c)).
  - intros [Hd| ->]; [apply H5; by left|]. apply H4. chars.
Qed.
Lemma step_high fuel c l : high c -> tokenize_from (S fuel) (c :: l) = UB.
Proof.
  unfold high. intros Hh. cbn [tokenize_from].
  rewrite not_hash by (intros ->; chars).
  destruct (ascii7 c) eqn:E; [apply ascii7_spec in E; lia|]. done.
Qed.
Lemma step_nul fuel c l :
  code c = 0 -> tokenize_from (S fuel) (c :: l) = cons_tok (Tok TSymbol [c]) (tokenize_from fuel l).
Proof.
  intros Hw. cbn [tokenize_from].
  rewrite not_hash by (intros ->; chars).
  rewrite (proj2 (ascii7_spec c)) by (chars). cbn [negb].
  rewrite white_false by chars.
  by rewrite (proj2 (strchr_spec c)) by (by right).
Qed.

(** Every character selects one of the branches above. *)
Lemma char_cases c :
  c = "#"%char \/ white c \/ punctuation c \/ quote c \/ digit c \/ (letter c \/ c = "_"%char) \/
  code c = 0 \/ high c \/ (illegal c /\ code c <> 0 /\ code c < 128).
Proof.
  unfold high.
  destruct (decide (c = "#"%char)); [tauto|]. right.
  destruct (isspace c) eqn:E1; [apply isspace_spec in E1; tauto|]. right.
  destruct (decide (punctuation c)) as [?|H2]; [tauto|]. right.
  destruct (ceqb c """"%char || ceqb c "'"%char) eqn:E3; [apply quote_spec in E3; tauto|]. right.
  destruct (isdigit c) eqn:E4; [apply isdigit_spec in E4; tauto|]. right.
  destruct (isalnum c || ceqb c "_"%char) eqn:E5.
  { apply alnum_spec in E5 as [Hd|Hl]; [|tauto]. apply isdigit_spec in Hd. congruence. }
  right.
  destruct (decide (code c = 0)); [tauto|]. right.
  destruct (Nat.lt_ge_cases (code c) 128); [|tauto]. right. split; [|done].
  split; [done|]. split; [intros Hx; apply isspace_spec in Hx; congruence|].
  split; [intros Hx; apply quote_spec in Hx; congruence|]. split; [done|].
  intros Hx. apply alnum_spec in Hx. congruence.
Qed.

(** ** Reading tokens *)
Lemma not_starts_high_reads l ts rest : reads l ts rest -> ~ starts high rest -> ~ starts high l.
Proof.
  intros Hr. induction Hr as [l|c l ts rest Hw Hr IH|t s l ts rest Hs He Hr IH]; intros Hn; [done| |].
  - intros (? & ? & [= <- <-] & Hh). unfold high in Hh. chars.
  - intros (c & l' & E & Hh). unfold high in Hh.
    unfold spells in Hs. destruct (t_type t).
    + destruct Hs as (_ & (c' & s' & -> & Hc) & _). injection E as <- <-. chars.
    + destruct Hs as (_ & c' & -> & Hc). injection E as <- <-. chars.
    + destruct Hs as (_ & (c' & s' & -> & Hc) & _). injection E as <- <-. chars.
    + destruct Hs as (q & Hq & _ & ->). injection E as <- <-. chars.
Qed.

Lemma tokenize_token fuel t s l :
  spells t s -> ends_before t l -> ~ starts high l ->
  tokenize_from (S fuel) (s ++ l) = cons_tok t (tokenize_from fuel l).
Proof.
  intros Hs He Hh. unfold spells, ends_before in *. destruct t as [ty v]; cbn [t_type t_val] in *.
  destruct ty.
  - destruct Hs as (-> & (c & s' & -> & Hc) & Hall). apply Forall_cons in Hall as [_ Hall].
    rewrite <- app_comm_cons, step_name by done.
    rewrite (proj2 (extend_ok still_id name_char (s' ++ l) s' l still_id_spec name_char_7)); done.
  - destruct Hs as (-> & c & -> & Hc). simpl app. by rewrite step_symbol.
  - destruct Hs as (-> & (c & s' & -> & Hc) & Hall). apply Forall_cons in Hall as [_ Hall].
    rewrite <- app_comm_cons, step_number by done.
    rewrite (proj2 (extend_ok still_numeric number_char (s' ++ l) s' l still_numeric_spec number_char_7)); done.
  - destruct Hs as (q & Hq & Hn & ->). simpl app. rewrite step_quote by done.
    rewrite (proj2 (quoted_some q _ v l)); [done|]. split; [|done]. by rewrite <- app_assoc.
Qed.

Lemma tokenize_reads l ts rest :
  reads l ts rest -> ~ starts high rest ->
  forall fuel, length l < fuel ->
  exists fuel', length rest < fuel' /\
    tokenize_from fuel l = match tokenize_from fuel' rest with Ok (b, ts') => Ok (b, ts ++ ts') | e => e end.
Proof.
  intros Hr Hh. induction Hr as [l|c l ts rest Hw Hr IH|t s l ts rest Hs He Hr IH]; intros fuel Hf.
  - exists fuel. split; [done|]. by destruct (tokenize_from fuel l) as [[? ?]| | | | |].
  - destruct fuel as [|fuel]; [simpl in Hf; lia|]. rewrite step_white by done.
    destruct (IH Hh fuel) as (f' & Hf' & ->); [simpl in Hf; lia|]. by exists f'.
  - destruct fuel as [|fuel]; [lia|].
    rewrite (tokenize_token fuel t s l Hs He (not_starts_high_reads l ts rest Hr Hh)).
    assert (0 < length s) as Hs0.
    { unfold spells in Hs. destruct (t_type t).
      - destruct Hs as (_ & (? & ? & -> & _) & _). simpl; lia.
      - destruct Hs as (_ & ? & -> & _). simpl; lia.
      - destruct Hs as (_ & (? & ? & -> & _) & _). simpl; lia.
      - destruct Hs as (? & _ & _ & ->). simpl; lia. }
    destruct (IH Hh fuel) as (f' & Hf' & ->); [rewrite app_length in Hf; lia|].
    exists f'. split; [done|]. by destruct (tokenize_from f' rest) as [[? ?]| | | | |].
Qed.

Lemma tokenize_accepted line ts : accepted line ts -> tokenize line = Ok (true, ts).
Proof.
  intros (rest & Hr & Hend). unfold tokenize.
  destruct (tokenize_reads line ts rest Hr) with (fuel := S (length line)) as (f' & Hf' & ->).
  - intros (c & l' & -> & Hh). destruct Hend as [[=]|(? & ? & [= <- <-] & <-)]. unfold high in Hh. chars.
  - lia.
  - destruct f' as [|f']; [lia|]. destruct Hend as [->|(? & ? & -> & <-)].
    + rewrite step_nil. by rewrite app_nil_r.
    + rewrite step_comment. by rewrite app_nil_r.
Qed.
Lemma tokenize_rejected line ts :
  (forall c, c ∈ line -> plain c) -> rejected line ts -> tokenize line = Ok (false, ts).
Proof.
  intros Hp (rest & Hr & Hend). unfold tokenize.
  assert (forall c, c ∈ rest -> plain c) as Hpr.
  { clear Hend. induction Hr as [l|c l ts rest Hw Hr IH|t s l ts rest Hs He Hr IH]; [done| |].
    - apply IH. intros c' Hc'. apply Hp. set_solver.
    - apply IH. intros c' Hc'. apply Hp. set_solver. }
  destruct (tokenize_reads line ts rest Hr) with (fuel := S (length line)) as (f' & Hf' & ->).
  - intros (c & l' & -> & Hh). specialize (Hpr c (elem_of_list_here _ _)). unfold high in Hh. chars.
  - lia.
  - destruct f' as [|f']; [lia|]. destruct Hend as [(q & l' & Hq & -> & Hn)|(c & l' & -> & Hi)].
    + rewrite step_quote by done. rewrite (proj2 (quoted_none q l')) by done. by rewrite app_nil_r.
    + specialize (Hpr c (elem_of_list_here _ _)).
      rewrite step_illegal; [by rewrite app_nil_r|done| |]; unfold plain in Hpr; lia.
Qed.

(** What a result of the tokenizer means. *)
Definition token_result (l : text) (res : outcome (bool * list token)) : Prop :=
  match res with
  | Ok (true, ts) => (forall c, c ∈ l -> code c <> 0) -> accepted l ts
  | Ok (false, ts) => (forall c, c ∈ l -> code c <> 0) -> rejected l ts
  | UB => exists c, c ∈ l /\ high c
  | _ => False
  end.
Lemma accepted_token t s l ts : spells t s -> ends_before t l -> accepted l ts -> accepted (s ++ l) (t :: ts).
Proof. intros Hs He (rest & Hr & Hend). exists rest. split; [by constructor|done]. Qed.
Lemma rejected_token t s l ts : spells t s -> ends_before t l -> rejected l ts -> rejected (s ++ l) (t :: ts).
Proof. intros Hs He (rest & Hr & Hend). exists rest. split; [by constructor|done]. Qed.
Lemma token_result_cons t s l res :
  spells t s -> ends_before t l -> token_result l res -> token_result (s ++ l) (cons_tok t res).
Proof.
  intros Hs He. destruct res as [[[] ts]| | | | |]; simpl; try done.
  - intros H Hn. apply accepted_token; [done..|]. apply H. set_solver.
  - intros H Hn. apply rejected_token; [done..|]. apply H. set_solver.
  - intros (c & Hc & Hh). exists c. set_solver.
Qed.
Lemma tokenize_from_sound fuel l : length l < fuel -> token_result l (tokenize_from fuel l).
Proof.
  revert l. induction fuel as [|fuel IH]; intros l Hf; [lia|].
  destruct l as [|c l].
  { rewrite step_nil. simpl. intros _. exists []. split; [constructor|by left]. }
  simpl in Hf.
  destruct (char_cases c) as [->|[H|[H|[H|[H|[H|[H|[H|[H [H0 H7]]]]]]]]]].
  - rewrite step_comment. simpl. intros _. eexists. split; [constructor|]. right. eexists _, _. split; [reflexivity|done].
  - rewrite step_white by done. specialize (IH l ltac:(lia)). unfold token_result in *.
    destruct (tokenize_from fuel l) as [[[] ts]| | | | |]; try done.
    + intros Hn. destruct IH as (rest & Hr & He); [set_solver|]. exists rest. split; [by constructor|done].
    + intros Hn. destruct IH as (rest & Hr & He); [set_solver|]. exists rest. split; [by constructor|done].
    + destruct IH as (c' & Hc' & Hh). exists c'. set_solver.
  - rewrite step_symbol by done. apply (token_result_cons (Tok TSymbol [c]) [c] l); [|done|apply IH; lia].
    split; [done|]. by exists c.
  - rewrite step_quote by done. destruct (quoted c l) as [[body l2]|] eqn:Eq.
    + apply quoted_some in Eq as [-> Hn]. rewrite app_length in Hf. simpl in Hf.
      replace (c :: body ++ c :: l2) with (([c] ++ body ++ [c]) ++ l2) by (simpl; by rewrite <- app_assoc).
      apply token_result_cons; [|done|apply IH; lia]. by exists c.
    + apply quoted_none in Eq. simpl. intros _. exists (c :: l). split; [constructor|]. left. exists c, l. done.
  - rewrite step_number by done.
    destruct (extend_cases still_numeric l) as [(a & b & Ee)|(-> & c' & Hc' & Hh)].
    2:{ simpl. exists c'. split; [by apply elem_of_list_further|done]. }
    rewrite Ee. cbn [obind].
    apply (extend_ok still_numeric number_char l a b still_numeric_spec number_char_7) in Ee as (-> & Ha & Hb & Hh).
    rewrite app_length in Hf. rewrite app_comm_cons.
    apply token_result_cons; [|done|apply IH; lia]. split; [done|].
    split; [by exists c, a|]. constructor; [by left|done].
  - rewrite step_name by done.
    destruct (extend_cases still_id l) as [(a & b & Ee)|(-> & c' & Hc' & Hh)].
    2:{ simpl. exists c'. split; [by apply elem_of_list_further|done]. }
    rewrite Ee. cbn [obind].
    apply (extend_ok still_id name_char l a b still_id_spec name_char_7) in Ee as (-> & Ha & Hb & Hh).
    rewrite app_length in Hf. rewrite app_comm_cons.
    apply token_result_cons; [|done|apply IH; lia]. split; [done|].
    split; [by exists c, a|]. constructor; [by right|done].
  - rewrite step_nul by done. specialize (IH l ltac:(lia)). unfold token_result in *.
    destruct (tokenize_from fuel l) as [[[] ts]| | | | |]; simpl; try done.
    + intros Hn. destruct (Hn c); [set_solver|done].
    + intros Hn. destruct (Hn c); [set_solver|done].
    + destruct IH as (c' & Hc' & Hh). exists c'. set_solver.
  - rewrite step_high by done. simpl. exists c. split; [apply elem_of_list_here|done].
  - rewrite step_illegal by done. simpl. intros _. exists (c :: l). split; [constructor|]. right. exists c, l. done.
Qed.
Lemma tokenize_sound l : token_result l (tokenize l).
Proof. apply tokenize_from_sound. lia. Qed.

(** ** Rendering *)
Lemma canonical_spells t : writable t -> spells t (canonical t).
Proof.
  intros (s & Hs). unfold spells, canonical in *. destruct (t_type t).
  - destruct Hs as (-> & ?). done.
  - destruct Hs as (-> & ?). done.
  - destruct Hs as (-> & ?). done.
  - destruct Hs as (q & [-> | ->] & Hn & _).
    + case_bool_decide; [exists """"%char|exists "'"%char]; split_and!; try done; [by left|by right].
    + rewrite bool_decide_eq_false_2 by done. exists "'"%char. split_and!; try done. by right.
Qed.
Lemma render_accepted ts : Forall writable ts -> accepted (render ts) ts.
Proof.
  induction 1 as [|t ts Ht Hts IH].
  - exists []. split; [constructor|by left].
  - unfold render in *. cbn [map concat]. rewrite <- app_assoc.
    apply accepted_token; [by apply canonical_spells| |].
    + unfold ends_before. destruct (t_type t); try done;
      intros (c & l' & E & Hc); simpl in E; injection E as <- _; chars.
    + destruct IH as (rest & Hr & He). exists rest. split; [|done]. constructor; [by left|done].
Qed.
