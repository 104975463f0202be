(** Proofs about the schema reader. *)
From Coq Require Import String Ascii.
From stdpp Require Import gmap strings.
From Coq Require Import Lia.
From Verif Require Import M_base M_text M_parse M_schema S_parse S_schema P_parse P_text.
Local Open Scope nat_scope.

Lemma teqb_true a b : teqb a b = true <-> a = b.
Proof. unfold teqb. apply bool_decide_eq_true. Qed.
Lemma val_is_true t s : val_is t s = true <-> t_val t = txt s.
Proof. apply teqb_true. Qed.
Lemma str_txt s : str (txt s) = s.
Proof. apply string_of_list_ascii_of_string. Qed.
Lemma txt_str t : txt (str t) = t.
Proof. apply list_ascii_of_string_of_list_ascii. Qed.
Lemma str_inj a b : str a = str b -> a = b.
Proof. intros H. rewrite <- (txt_str a), <- (txt_str b). congruence. Qed.

Lemma obind_ok {A B} (m : outcome A) (f : A -> outcome B) b : obind m f = Ok b <-> exists a, m = Ok a /\ f a = Ok b.
Proof. split; [destruct m; simpl; try done; by eauto|intros (a & -> & H); exact H]. Qed.
Lemma obind_ub {A B} (m : outcome A) (f : A -> outcome B) : obind m f = UB <-> m = UB \/ exists a, m = Ok a /\ f a = UB.
Proof.
  split; [destruct m; simpl; try done; by eauto|]. intros [->|(a & -> & H)]; [done|exact H].
Qed.
Lemma type_check_ok ty l v l' : type_check ty l = Ok (v, l') <-> l = Tok ty v :: l'.
Proof.
  unfold type_check. split.
  - destruct l as [|[ty' v'] l]; [done|]. simpl. case_bool_decide; [|done]. intros [= <- <-]. by subst.
  - intros ->. simpl. by rewrite bool_decide_eq_true_2.
Qed.
Lemma type_check_ub ty l : type_check ty l <> UB.
Proof. unfold type_check. destruct l; [done|]. by case_bool_decide. Qed.
Lemma val_check_ok v l l' : val_check v l = Ok l' <-> exists t, l = t :: l' /\ t_val t = v.
Proof.
  unfold val_check. split.
  - destruct l as [|t l]; [done|]. destruct (teqb (t_val t) v) eqn:E; [|done]. intros [= <-]. apply teqb_true in E. by eauto.
  - intros (t & -> & H). by rewrite (proj2 (teqb_true _ _) H).
Qed.
Lemma val_check_ub v l : val_check v l <> UB.
Proof. unfold val_check. destruct l; [done|]. by case_match. Qed.

(** ** Names *)
Lemma dist_of_name_iff n e t : dist_of_name n = Some (e, t) <-> known_dist n e t.
Proof.
  unfold dist_of_name. split.
  - repeat case_bool_decide; subst; try done; intros [= <- <-]; constructor.
  - by destruct 1.
Qed.
Lemma emis_of_name_iff n e t : emis_of_name n = Some (e, t) <-> known_emission n e t.
Proof.
  unfold emis_of_name. split.
  - repeat case_bool_decide; subst; try done; intros [= <- <-]; constructor.
  - by destruct 1.
Qed.
Lemma known_dist_no_paren d e t : known_dist (str d) e t -> "("%char ∉ d.
Proof.
  intros H. rewrite <- (txt_str d). revert H. generalize (str d). intros s H. destruct H; vm_compute txt; set_solver by done.
Qed.
Lemma split_at_none c l : c ∉ l -> split_at c l = (l, []).
Proof.
  intros H. unfold split_at. apply span_spec. split; [by rewrite app_nil_r|]. split; [|done].
  apply Forall_forall. intros x Hx. apply negb_true_iff, ceqb_false. congruence.
Qed.
Lemma dist_spec_new_plain d args : "("%char ∉ d ->
  dist_spec_new d args = match dist_of_name (str d) with Some (e, t) => Ok (DistSpec e t args) | None => Exits end.
Proof. intros H. unfold dist_spec_new. by rewrite split_at_none. Qed.

(** ** Lists of tokens *)
Lemma list_len_ind {A} (P : list A -> Prop) :
  (forall l, (forall l', length l' < length l -> P l') -> P l) -> forall l, P l.
Proof.
  intros H l. remember (length l) as n eqn:En. assert (length l <= n) as Hle by lia. clear En.
  revert l Hle. induction n as [|n IH]; intros l Hle; apply H; intros l' Hl'; [lia|]. apply IH. lia.
Qed.
Lemma vals_app a b : vals (a ++ b) = vals a ++ vals b.
Proof. apply map_app. Qed.
Lemma vals_cons t b : vals (t :: b) = t_val t :: vals b.
Proof. reflexivity. Qed.
Lemma separated_cons sep l l' ll : separated sep (l :: l' :: ll) = l ++ sep :: separated sep (l' :: ll).
Proof. reflexivity. Qed.
Lemma separated_one sep l : separated sep [l] = l.
Proof. reflexivity. Qed.

Definition add_param (m : gmap string string) (kv : text * token) : gmap string string :=
  <[str kv.1 := str (t_val kv.2)]> m.

(** *** Parameters *)
Lemma params_loop_reads ps m l : ps <> [] ->
  params_loop m (params_tokens ps ++ sym "]" :: l) = Ok (foldl add_param m ps, l).
Proof.
  intros Hne. revert m. induction ps as [|[k v] ps IH]; [done|]. intros m.
  unfold params_tokens in *. destruct ps as [|kv' ps].
  - reflexivity.
  - cbn [map]. rewrite separated_cons. rewrite <- app_assoc. cbn [app].
    cbn [param_tokens fst snd app]. cbn [params_loop].
    change (t_type (ident k)) with TIdent. rewrite bool_decide_eq_true_2 by done.
    change (val_is (sym "=") "=") with true. cbv iota.
    change (val_is (sym ",") ",") with true. cbv iota.
    exact (IH ltac:(done) (add_param m (k, v))).
Qed.
Lemma params_loop_inv l : forall m m' l',
  params_loop m l = Ok (m', l') ->
  exists ps, ps <> [] /\ vals l = vals (params_tokens ps ++ [sym "]"]) ++ vals l' /\ m' = foldl add_param m ps.
Proof.
  induction l as [l IH] using list_len_ind. intros m m' l'. destruct l as [|k l1]; [done|]. cbn [params_loop].
  case_bool_decide as Hk; [|done]. destruct l1 as [|e l2]; [done|].
  destruct (val_is e "=") eqn:Ee; [|done]. apply val_is_true in Ee.
  destruct l2 as [|v l3]; [done|]. destruct l3 as [|s l4]; [done|].
  destruct (val_is s ",") eqn:Es.
  - apply val_is_true in Es. intros H. apply IH in H as (ps & Hne & Hv & ->); [|simpl; lia].
    exists ((t_val k, v) :: ps). split; [done|]. split; [|done].
    destruct ps as [|p ps]; [done|]. unfold params_tokens in *. cbn [map]. rewrite separated_cons.
    rewrite !vals_cons, Ee, Es, Hv. reflexivity.
  - destruct (val_is s "]") eqn:Es'; [|done]. apply val_is_true in Es'. intros [= <- <-].
    exists [(t_val k, v)]. split; [done|]. split; [|done].
    rewrite !vals_cons, Ee, Es'. reflexivity.
Qed.
Lemma params_loop_ub l : forall m,
  params_loop m l = UB ->
  exists ps more, more <> [] /\ ps <> [] /\ vals l ++ more = vals (params_tokens ps ++ [sym "]"]).
Proof.
  induction l as [l IH] using list_len_ind. intros m. destruct l as [|k l1]; [done|]. cbn [params_loop].
  case_bool_decide as Hk; [|done]. destruct l1 as [|e l2]; [done|].
  destruct (val_is e "=") eqn:Ee; [|done]. apply val_is_true in Ee.
  destruct l2 as [|v l3].
  { intros _. exists [(t_val k, sym ",")], [[","%char]; ["]"%char]]. split; [done|]. split; [done|].
    rewrite !vals_cons, Ee. reflexivity. }
  destruct l3 as [|s l4].
  { intros _. exists [(t_val k, v)], [["]"%char]]. split; [done|]. split; [done|].
    rewrite !vals_cons, Ee. reflexivity. }
  destruct (val_is s ",") eqn:Es.
  - apply val_is_true in Es. intros H. apply IH in H as (ps & more & Hm & Hne & Hv); [|simpl; lia].
    exists ((t_val k, v) :: ps), more. split; [done|]. split; [done|].
    destruct ps as [|p ps]; [done|]. unfold params_tokens in *. cbn [map]. rewrite separated_cons.
    rewrite !vals_cons, Ee, Es. cbn [app]. rewrite Hv. reflexivity.
  - by destruct (val_is s "]").
Qed.

(** *** Domains *)
Definition domains_tokens (ds : list token) : list token := separated (sym ",") (map (fun d => [d]) ds).
Definition names_of (ds : list token) : list string := map (fun d => str (t_val d)) ds.
Lemma domains_loop_reads ds l : ds <> [] ->
  domains_loop (domains_tokens ds ++ sym ")" :: l) = Ok (names_of ds).
Proof.
  intros Hne. induction ds as [|d ds IH]; [done|]. unfold domains_tokens in *.
  destruct ds as [|d' ds]; [reflexivity|].
  cbn [map]. rewrite separated_cons, <- app_assoc. cbn [app domains_loop].
  change (val_is (sym ",") ",") with true. cbv iota.
  cbn [map] in IH. rewrite IH by done. reflexivity.
Qed.
Lemma domains_loop_inv l : forall ns,
  domains_loop l = Ok ns ->
  exists ds l', ds <> [] /\ vals l = vals (domains_tokens ds ++ [sym ")"]) ++ vals l' /\ ns = names_of ds /\
    head l = head ds.
Proof.
  induction l as [l IH] using list_len_ind. intros ns. destruct l as [|d l1]; [done|]. cbn [domains_loop].
  destruct l1 as [|s l2]; [done|].
  destruct (val_is s ",") eqn:Es.
  - apply val_is_true in Es. intros H. apply obind_ok in H as (ns' & H & [= <-]).
    apply IH in H as (ds & l' & Hne & Hv & -> & Hh); [|simpl; lia].
    exists (d :: ds), l'. split; [done|]. split; [|done].
    destruct ds as [|d' ds]; [done|]. unfold domains_tokens in *. cbn [map]. rewrite separated_cons.
    rewrite !vals_cons, Es, Hv. reflexivity.
  - destruct (val_is s ")") eqn:Es'; [|done]. apply val_is_true in Es'. intros [= <-].
    exists [d], l2. split; [done|]. split; [|done]. rewrite !vals_cons, Es'. reflexivity.
Qed.
Lemma domains_loop_ub l :
  domains_loop l = UB ->
  exists ds more, more <> [] /\ ds <> [] /\ vals l ++ more = vals (domains_tokens ds ++ [sym ")"]) /\
    (l <> [] -> head l = head ds).
Proof.
  induction l as [l IH] using list_len_ind. destruct l as [|d l1].
  { intros _. exists [ident (txt "D")], [txt "D"; [")"%char]]. done. }
  cbn [domains_loop]. destruct l1 as [|s l2].
  { intros _. exists [d], [[")"%char]]. done. }
  destruct (val_is s ",") eqn:Es.
  - apply val_is_true in Es. intros H. apply obind_ub in H as [H|(ns' & _ & [=])].
    apply IH in H as (ds & more & Hm & Hne & Hv & Hh); [|simpl; lia].
    exists (d :: ds), more. split; [done|]. split; [done|].
    destruct ds as [|d' ds]; [done|]. unfold domains_tokens in *. cbn [map]. rewrite separated_cons.
    rewrite !vals_cons, Es. cbn [app]. rewrite Hv. done.
  - by destruct (val_is s ")").
Qed.

(** ** One declaration *)
Lemma params_map_foldl ps : params_map ps = foldl add_param ∅ ps.
Proof. reflexivity. Qed.
(** The optional parameter list. *)
Definition opt_params (l : list token) : outcome (gmap string string * list token) :=
  match l with
  | [] => UB
  | t :: l' => if val_is t "[" then params_loop ∅ l' else Ok (∅, l)
  end.
Lemma opt_params_reads w l :
  opt_params (bracket_tokens w ++ sym "(" :: l) = Ok (params_map (w_params w), sym "(" :: l).
Proof.
  unfold bracket_tokens. destruct (w_params w) as [|p ps] eqn:Ep; [reflexivity|].
  cbn [app]. cbn [opt_params]. change (val_is (sym "[") "[") with true. cbv iota.
  rewrite <- app_assoc. cbn [app]. rewrite params_loop_reads by done. reflexivity.
Qed.
Lemma parse_decl_unfold t ts :
  parse_decl (t :: ts) =
  let* (relname, l) := type_check TIdent (t :: ts) in
  let* l := val_check (txt "~") l in
  let* (dist, l) := type_check TIdent l in
  let* (params, l) := opt_params l in
  let* l := val_check (txt "(") l in
  let* (first, l1) := type_check TIdent l in
  match l1 with
  | [] => UB
  | s :: l2 =>
    if val_is s ";" then
      let* ds := domains_loop l2 in
      let* spec := emis_spec_new dist params in
      Ok (Some (str relname, NoisyOf ds spec (str first)))
    else
      let* ds := domains_loop l in
      let* spec := dist_spec_new dist params in
      Ok (Some (str relname, Clean ds spec))
  end.
Proof. reflexivity. Qed.
Lemma type_check_ident s l : type_check TIdent (ident s :: l) = Ok (s, l).
Proof. reflexivity. Qed.
Lemma val_check_sym c l : val_check [c] (sym c :: l) = Ok l.
Proof. unfold val_check. cbn [sym t_val]. by rewrite (proj2 (teqb_true [c] [c])). Qed.

Lemma parse_decl_reads w d extra :
  well_formed w -> declares w d -> parse_decl (decl_tokens w ++ extra) = Ok (Some (str (w_name w), d)).
Proof.
  intros Hw Hd. unfold decl_tokens, header_tokens. cbn [app]. rewrite parse_decl_unfold.
  change (txt "~") with ["~"%char]. change (txt "(") with ["("%char].
  rewrite type_check_ident. cbn [obind].
  rewrite val_check_sym. cbn [obind]. rewrite type_check_ident. cbn [obind].
  rewrite <- app_assoc. cbn [app]. rewrite opt_params_reads. cbn [obind].
  rewrite val_check_sym. cbn [obind].
  unfold domain_tokens. unfold declares in Hd. unfold well_formed in Hw.
  destruct (w_base w) as [b|].
  - destruct Hd as (e & ty & Hk & ->). cbn [app]. rewrite type_check_ident. cbn [obind].
    change (val_is (sym ";") ";") with true. cbv iota.
    rewrite <- app_assoc. cbn [app]. fold (domains_tokens (w_domains w)). rewrite (domains_loop_reads (w_domains w) extra Hw). cbn [obind].
    unfold emis_spec_new. apply emis_of_name_iff in Hk. rewrite Hk. reflexivity.
  - destruct Hd as (e & ty & Hk & ->). destruct Hw as (d0 & ds & Ed & Ht). cbn [app].
    rewrite <- app_assoc. cbn [app]. fold (domains_tokens (w_domains w)).
    pose proof (domains_loop_reads (w_domains w) extra ltac:(congruence)) as Hl.
    assert (exists s l2, domains_tokens (w_domains w) ++ sym ")" :: extra = d0 :: s :: l2 /\ val_is s ";" = false) as (s & l2 & El & Es).
    { rewrite Ed. destruct ds as [|d1 ds]; eexists _, _; split; reflexivity. }
    rewrite El in Hl |- *. destruct d0 as [ty0 v0]. simpl in Ht. subst ty0.
    change (Tok TIdent v0) with (ident v0) in *.
    rewrite type_check_ident. cbn [obind]. rewrite Es. rewrite Hl. cbn [obind].
    rewrite dist_spec_new_plain by (by eapply known_dist_no_paren).
    apply dist_of_name_iff in Hk. rewrite Hk. reflexivity.
Qed.

Lemma opt_params_inv l m l' :
  opt_params l = Ok (m, l') ->
  exists ps, vals l = vals (match ps with [] => [] | ps => sym "[" :: params_tokens ps ++ [sym "]"] end) ++ vals l' /\
    m = params_map ps.
Proof.
  destruct l as [|t l]; [done|]. cbn [opt_params]. destruct (val_is t "[") eqn:Et.
  - intros H. apply params_loop_inv in H as (ps & Hne & Hv & ->). exists ps. apply val_is_true in Et.
    destruct ps as [|p ps]; [done|]. rewrite !vals_cons, Et, Hv. done.
  - intros [= <- <-]. by exists [].
Qed.
Lemma opt_params_ub l :
  opt_params l = UB ->
  exists ps more, vals l ++ more = vals (match ps with [] => [] | ps => sym "[" :: params_tokens ps ++ [sym "]"] end) /\
    (l <> [] -> more <> []).
Proof.
  destruct l as [|t l].
  - intros _. by exists [], [].
  - cbn [opt_params]. destruct (val_is t "[") eqn:Et; [|done]. intros H.
    apply params_loop_ub in H as (ps & more & Hm & Hne & Hv). exists ps, more. split; [|done].
    apply val_is_true in Et. destruct ps as [|p ps]; [done|]. rewrite !vals_cons, Et. cbn [app]. rewrite Hv. done.
Qed.

Ltac vals_eq :=
  repeat first [rewrite vals_app | rewrite vals_cons]; cbn [t_val ident sym];
  repeat first [rewrite <- app_assoc | rewrite <- app_comm_cons];
  match goal with |- context [match ?ps with [] => _ | _ :: _ => _ end] => destruct ps; reflexivity | _ => reflexivity end.
Lemma parse_decl_inv ts n d :
  (forall t, t ∈ ts -> t_type t = TIdent -> "("%char ∉ t_val t) ->
  parse_decl ts = Ok (Some (n, d)) ->
  exists w extra, well_formed w /\ n = str (w_name w) /\ declares w d /\
    vals ts = vals (decl_tokens w) ++ vals extra.
Proof.
  intros Hp. destruct ts as [|t0 ts]; [done|]. rewrite parse_decl_unfold. intros H.
  apply obind_ok in H as ([rn l1] & H1 & H). apply type_check_ok in H1.
  apply obind_ok in H as (l2 & H2 & H). apply val_check_ok in H2 as (t1 & -> & Et1).
  apply obind_ok in H as ([ds l3] & H3 & H). apply type_check_ok in H3 as ->.
  injection H1 as -> ->.
  apply obind_ok in H as ([m l4] & H4 & H). apply opt_params_inv in H4 as (ps & Hv4 & ->).
  apply obind_ok in H as (l5 & H5 & H). apply val_check_ok in H5 as (t2 & -> & Et2).
  apply obind_ok in H as ([fi l6] & H6 & H). apply type_check_ok in H6 as ->.
  destruct l6 as [|s l6]; [done|].
  destruct (val_is s ";") eqn:Es.
  - apply val_is_true in Es. apply obind_ok in H as (ns & H & H').
    apply domains_loop_inv in H as (dts & l' & Hne & Hv & -> & _).
    apply obind_ok in H' as (spec & Hs & [= <- <-]).
    unfold emis_spec_new in Hs. destruct (emis_of_name (str ds)) as [[e ty]|] eqn:Ee; [|done].
    injection Hs as <-. apply emis_of_name_iff in Ee.
    exists (Written rn ds ps (Some fi) dts), l'. split; [done|]. split; [done|]. split; [by exists e, ty|].
    unfold decl_tokens, header_tokens, bracket_tokens, domain_tokens. cbn [w_name w_dist w_params w_base w_domains].
    cbn [app]. fold (domains_tokens dts). rewrite !vals_cons, Et1. rewrite Hv4. rewrite !vals_cons, Et2, Es, Hv. vals_eq.
  - apply obind_ok in H as (ns & H & H').
    apply domains_loop_inv in H as (dts & l' & Hne & Hv & -> & Hh).
    apply obind_ok in H' as (spec & Hs & [= <- <-]).
    rewrite dist_spec_new_plain in Hs.
    2:{ apply (Hp (Tok TIdent ds)); [set_solver|done]. }
    destruct (dist_of_name (str ds)) as [[e ty]|] eqn:Ee; [|done].
    injection Hs as <-. apply dist_of_name_iff in Ee.
    exists (Written rn ds ps None dts), l'.
    split. { destruct dts as [|d0 dts]; [done|]. simpl in Hh. injection Hh as <-. by eexists _, _. }
    split; [done|]. split; [by exists e, ty|].
    unfold decl_tokens, header_tokens, bracket_tokens, domain_tokens. cbn [w_name w_dist w_params w_base w_domains].
    cbn [app]. fold (domains_tokens dts). rewrite !vals_cons, Et1. rewrite Hv4.
    rewrite (vals_cons t2), Et2, Hv. vals_eq.
Qed.

Lemma parse_decl_ub ts :
  parse_decl ts = UB ->
  (exists d args t, dist_spec_new d args = UB /\ t ∈ ts /\ t_val t = d) \/
  exists w more, more <> [] /\ well_formed w /\ vals ts ++ more = vals (decl_tokens w).
Proof.
  destruct ts as [|t0 ts]; [done|]. rewrite parse_decl_unfold. intros H.
  apply obind_ub in H as [H|([rn l1] & H1 & H)]; [by apply type_check_ub in H|]. apply type_check_ok in H1.
  apply obind_ub in H as [H|(l2 & H2 & H)]; [by apply val_check_ub in H|]. apply val_check_ok in H2 as (t1 & -> & Et1).
  apply obind_ub in H as [H|([ds l3] & H3 & H)]; [by apply type_check_ub in H|]. apply type_check_ok in H3 as ->.
  injection H1 as -> ->.
  apply obind_ub in H as [H|([m l4] & H4 & H)].
  { right. apply opt_params_ub in H as (ps & more & Hv & Hm).
    exists (Written rn ds ps None [ident (txt "D")]), (more ++ vals [sym "("; ident (txt "D"); sym ")"]).
    split; [by destruct more|]. split; [by eexists _, _|].
    unfold decl_tokens, header_tokens, bracket_tokens, domain_tokens. cbn [w_name w_dist w_params w_base w_domains].
    cbn [app]. rewrite !vals_cons, Et1. cbn [app]. rewrite app_assoc, Hv. vals_eq. }
  apply opt_params_inv in H4 as (ps & Hv4 & ->).
  apply obind_ub in H as [H|(l5 & H5 & H)]; [by apply val_check_ub in H|]. apply val_check_ok in H5 as (t2 & -> & Et2).
  apply obind_ub in H as [H|([fi l6] & H6 & H)]; [by apply type_check_ub in H|]. apply type_check_ok in H6 as ->.
  destruct l6 as [|s l6].
  { right. exists (Written rn ds ps None [ident fi]), [[")"%char]]. split; [done|]. split; [by eexists _, _|].
    unfold decl_tokens, header_tokens, bracket_tokens, domain_tokens. cbn [w_name w_dist w_params w_base w_domains].
    cbn [app]. rewrite !vals_cons, Et1. cbn [app]. rewrite Hv4, <- app_assoc. rewrite !vals_cons, Et2. vals_eq. }
  destruct (val_is s ";") eqn:Es.
  - apply val_is_true in Es. apply obind_ub in H as [H|(ns & _ & H)].
    2:{ apply obind_ub in H as [H|(? & _ & [=])]. unfold emis_spec_new in H. by repeat case_match. }
    right. apply domains_loop_ub in H as (dts & more & Hm & Hne & Hv & _).
    exists (Written rn ds ps (Some fi) dts), more. split; [done|]. split; [done|].
    unfold decl_tokens, header_tokens, bracket_tokens, domain_tokens. cbn [w_name w_dist w_params w_base w_domains].
    cbn [app]. fold (domains_tokens dts). rewrite !vals_cons, Et1. cbn [app]. rewrite Hv4, <- app_assoc.
    rewrite !vals_cons, Et2, Es. cbn [app]. rewrite Hv. vals_eq.
  - apply obind_ub in H as [H|(ns & _ & H)].
    2:{ apply obind_ub in H as [H|(? & _ & [=])]. left. exists ds, (params_map ps), (Tok TIdent ds). split; [done|]. split; [set_solver|done]. }
    right. apply domains_loop_ub in H as (dts & more & Hm & Hne & Hv & Hh).
    exists (Written rn ds ps None dts), more. split; [done|].
    split. { destruct dts as [|d0 dts]; [done|]. specialize (Hh ltac:(done)). simpl in Hh. injection Hh as <-. by eexists _, _. }
    unfold decl_tokens, header_tokens, bracket_tokens, domain_tokens. cbn [w_name w_dist w_params w_base w_domains].
    cbn [app]. fold (domains_tokens dts). rewrite !vals_cons, Et1. cbn [app]. rewrite Hv4, <- app_assoc.
    rewrite (vals_cons t2), Et2. cbn [app]. rewrite Hv. vals_eq.
Qed.
Lemma dist_spec_new_ub d args : dist_spec_new d args <> UB.
Proof.
  unfold dist_spec_new. destruct (split_at _ d) as [name a]. intros H.
  assert (forall l (m : gmap string string), foldM one_arg m l <> UB) as Hf.
  { intros l. induction l as [|p l IH]; intros m; [done|]. cbn [foldM]. unfold one_arg at 1.
    destruct (split_at "="%char p) as [k [|? v]]; [done|]. apply IH. }
  apply obind_ub in H as [H|(? & _ & H)]; [|by repeat case_match].
  destruct a as [|c a]; [done|]. apply obind_ub in H as [H|(? & _ & H)]; [|by apply Hf in H].
  unfold assert_ in H. by case_bool_decide.
Qed.

(** ** Lines and files *)
Lemma tokens_of_accepted line ts : accepted line ts -> Forall writable ts.
Proof.
  intros (rest & Hr & _). induction Hr as [l|c l ts rest Hw Hr IH|t s l ts rest Hs He Hr IH]; [constructor|done|].
  constructor; [by exists s|done].
Qed.
Lemma ident_no_paren t : writable t -> t_type t = TIdent -> "("%char ∉ t_val t.
Proof.
  intros (s & Hs) Ht. unfold spells in Hs. rewrite Ht in Hs. destruct Hs as (-> & _ & Hall).
  intros Hin. apply (proj1 (Forall_forall _ _) Hall) in Hin. chars.
Qed.
Lemma parse_line_reads line w d extra :
  accepted line (decl_tokens w ++ extra) -> well_formed w -> declares w d ->
  parse_line line = Ok (Some (str (w_name w), d)).
Proof.
  intros Ha Hw Hd. unfold parse_line. rewrite (tokenize_accepted _ _ Ha). cbn [obind assert_].
  by apply parse_decl_reads.
Qed.
Lemma parse_line_inv line n d :
  (forall c, c ∈ line -> code c <> 0) ->
  parse_line line = Ok (Some (n, d)) ->
  exists ts w extra, accepted line ts /\ well_formed w /\ n = str (w_name w) /\ declares w d /\
    vals ts = vals (decl_tokens w) ++ vals extra.
Proof.
  intros Hn H. unfold parse_line in H. apply obind_ok in H as ([ok ts] & Ht & H).
  apply obind_ok in H as ([] & Hok & H). unfold assert_ in Hok. destruct ok; [|done].
  pose proof (tokenize_sound line) as Hs. rewrite Ht in Hs. simpl in Hs. specialize (Hs Hn).
  apply parse_decl_inv in H as (w & extra & Hw & -> & Hd & Hv).
  - by exists ts, w, extra.
  - intros t Hin. apply ident_no_paren. apply tokens_of_accepted in Hs. by apply (proj1 (Forall_forall _ _) Hs).
Qed.
Lemma parse_line_none line :
  (forall c, c ∈ line -> code c <> 0) -> parse_line line = Ok None <-> accepted line [].
Proof.
  intros Hn. split.
  - intros H. unfold parse_line in H. apply obind_ok in H as ([ok ts] & Ht & H).
    apply obind_ok in H as ([] & Hok & H). unfold assert_ in Hok. destruct ok; [|done].
    pose proof (tokenize_sound line) as Hs. rewrite Ht in Hs. simpl in Hs. specialize (Hs Hn).
    destruct ts as [|t ts]; [done|]. exfalso. revert H. rewrite parse_decl_unfold. intros H.
    apply obind_ok in H as ([rn l1] & _ & H). apply obind_ok in H as (l2 & _ & H).
    apply obind_ok in H as ([ds l3] & _ & H). apply obind_ok in H as ([m l4] & _ & H).
    apply obind_ok in H as (l5 & _ & H). apply obind_ok in H as ([fi l6] & _ & H).
    destruct l6 as [|s l6]; [done|]. destruct (val_is s ";").
    + apply obind_ok in H as (? & _ & H). by apply obind_ok in H as (? & _ & H).
    + apply obind_ok in H as (? & _ & H). by apply obind_ok in H as (? & _ & H).
  - intros Ha. unfold parse_line. rewrite (tokenize_accepted _ _ Ha). reflexivity.
Qed.
Lemma parse_line_ub line :
  parse_line line = UB ->
  (exists c, c ∈ line /\ high c) \/
  exists ts w more, tokenize line = Ok (true, ts) /\ more <> [] /\ well_formed w /\ vals ts ++ more = vals (decl_tokens w).
Proof.
  intros H. unfold parse_line in H. apply obind_ub in H as [H|([ok ts] & Ht & H)].
  - left. pose proof (tokenize_sound line) as Hs. rewrite H in Hs. exact Hs.
  - right. apply obind_ub in H as [H|([] & Hok & H)]; [by destruct ok|].
    unfold assert_ in Hok. destruct ok; [|done].
    apply parse_decl_ub in H as [(d & args & t & Hd & _)|(w & more & ? & ? & ?)].
    + by apply dist_spec_new_ub in Hd.
    + by exists ts, w, more.
Qed.

Lemma check_prefix_ok b ds : check_prefix b ds = Ok tt <-> b `prefix_of` ds.
Proof.
  revert ds. induction b as [|x b IH]; intros ds; simpl.
  - split; [|done]. intros _. apply prefix_nil.
  - destruct ds as [|d ds].
    + split; [done|]. by intros ?%prefix_nil_inv.
    + rewrite obind_ok. split.
      * intros ([] & Ha & H). unfold assert_ in Ha. case_bool_decide; [|done]. subst. apply prefix_cons. by apply IH.
      * intros H. exists tt. split.
        -- unfold assert_. rewrite bool_decide_eq_true_2; [done|]. by apply prefix_cons_inv_1 in H.
        -- apply IH. by apply prefix_cons_inv_2 in H.
Qed.
Lemma foldM_unit {A} (f : unit -> A -> outcome unit) l :
  foldM f tt l = Ok tt <-> Forall (fun a => f tt a = Ok tt) l.
Proof.
  induction l as [|a l IH]; simpl; [by split|]. rewrite obind_ok, Forall_cons, <- IH. split.
  - intros ([] & ? & ?). done.
  - intros [? ?]. by exists tt.
Qed.
Lemma verify_ok schema : verify_noisy_relation_domains schema = Ok tt <-> bases_agree schema.
Proof.
  unfold verify_noisy_relation_domains. rewrite foldM_unit, Forall_forall. split.
  - intros H n ds sp b Hn. specialize (H (n, NoisyOf ds sp b)). rewrite elem_of_map_to_list in H. specialize (H Hn).
    unfold verify_one in H. cbn [snd] in H. apply obind_ok in H as (bd & Hb & H). unfold at_ in Hb.
    destruct (schema !! b) as [bd'|]; [|done]. injection Hb as ->. exists bd. split; [done|]. by apply check_prefix_ok.
  - intros H [n d] Hin. apply elem_of_map_to_list in Hin. unfold verify_one. cbn [snd]. destruct d as [|ds sp b]; [done|].
    destruct (H _ _ _ _ Hin) as (bd & -> & Hp). simpl. by apply check_prefix_ok.
Qed.

Lemma getlines_lines_of ls : Forall (fun l => newline ∉ l) ls -> getlines newline (lines_of ls) = ls.
Proof.
  induction 1 as [|l ls Hl Hls IH]; [done|]. unfold lines_of in *. cbn [map concat]. rewrite <- app_assoc. cbn [app].
  rewrite getlines_app by done. by rewrite IH.
Qed.
Lemma foldM_load_declared (ls : list text) (nds : list (string * decl)) s :
  Forall2 (fun l nd => parse_line l = Ok (Some nd)) ls nds ->
  foldM load_line s ls = Ok (foldl (fun m nd => <[nd.1 := nd.2]> m) s nds).
Proof.
  intros H. revert s. induction H as [|l [n d] ls nds Hl Hls IH]; intros s; [done|].
  cbn [foldM foldl fst snd]. unfold load_line at 1. rewrite Hl. cbn [obind]. by rewrite IH.
Qed.
Lemma foldl_insert_list (nds : list (string * decl)) (s : gmap string decl) :
  NoDup (nds.*1) -> foldl (fun m nd => <[nd.1 := nd.2]> m) s nds = list_to_map nds ∪ s.
Proof.
  revert s. induction nds as [|[n d] nds IH]; intros s Hnd; simpl; [by rewrite (left_id_L ∅ (∪))|].
  cbn [fmap list_fmap fst] in Hnd. apply NoDup_cons in Hnd as [Hn Hnd]. rewrite IH by done.
  rewrite <- insert_union_l. rewrite <- insert_union_r; [done|]. by apply not_elem_of_list_to_map_1.
Qed.
Lemma load_schema_declared ls nds :
  Forall (fun l => newline ∉ l) ls ->
  Forall2 (fun l nd => parse_line l = Ok (Some nd)) ls nds ->
  NoDup (nds.*1) ->
  bases_agree (list_to_map nds) ->
  load_schema (lines_of ls) = Ok (list_to_map nds).
Proof.
  intros Hnl Hp Hnd Hb. unfold load_schema. rewrite getlines_lines_of by done.
  rewrite (foldM_load_declared _ _ _ Hp). cbn [obind]. rewrite foldl_insert_list by done.
  rewrite (right_id_L ∅ (∪)). apply verify_ok in Hb. rewrite Hb. reflexivity.
Qed.
Lemma foldM_load_origin ls : forall s s' n d,
  foldM load_line s ls = Ok s' -> s' !! n = Some d ->
  s !! n = Some d \/ exists l, l ∈ ls /\ parse_line l = Ok (Some (n, d)).
Proof.
  induction ls as [|l ls IH]; intros s s' n d; cbn [foldM].
  - intros [= <-]. by left.
  - intros H Hn. apply obind_ok in H as (s1 & Hl & H). destruct (IH _ _ _ _ H Hn) as [Hs1|(l' & ? & ?)].
    + unfold load_line in Hl. apply obind_ok in Hl as (o & Hp & Hl). destruct o as [[n' d']|].
      * injection Hl as <-. destruct (decide (n' = n)) as [->|Hne].
        -- rewrite lookup_insert in Hs1. injection Hs1 as ->. right. exists l. split; [apply elem_of_list_here|done].
        -- rewrite lookup_insert_ne in Hs1 by done. by left.
      * injection Hl as <-. by left.
    + right. exists l'. split; [by apply elem_of_list_further|done].
Qed.
Lemma load_schema_inv contents schema :
  load_schema contents = Ok schema ->
  bases_agree schema /\
  forall n d, schema !! n = Some d -> exists l, l ∈ getlines newline contents /\ parse_line l = Ok (Some (n, d)).
Proof.
  unfold load_schema. intros H. apply obind_ok in H as (s & Hf & H). apply obind_ok in H as ([] & Hv & [= <-]).
  split; [by apply verify_ok|]. intros n d Hn. destruct (foldM_load_origin _ _ _ _ _ Hf Hn) as [He|?]; [|done].
  by rewrite lookup_empty in He.
Qed.
