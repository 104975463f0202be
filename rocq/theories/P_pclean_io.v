(** Proofs about the reader of PClean schema files. *)
From Coq Require Import String Ascii.
From stdpp Require Import gmap strings list.
From Coq Require Import Lia.
From Verif Require Import M_base M_text M_parse M_io M_pclean_io S_parse S_io S_pclean_io P_base P_text P_parse P_schema P_io.
Local Open Scope nat_scope.

Lemma is_val_iff t s : is_val t s = true <-> says t s.
Proof. unfold is_val, teqb, says. apply bool_decide_eq_true. Qed.
Lemma is_val_not t s : is_val t s = false <-> ~ says t s.
Proof. unfold is_val, teqb, says. apply bool_decide_eq_false. Qed.

(** ** Latest entries *)
Definition enter {A} (m : gmap string A) (p : string * A) : gmap string A := <[p.1 := p.2]> m.
Lemma latest_nil {A} : latest (A := A) [] ∅.
Proof. intros k. by rewrite lookup_empty. Qed.
Lemma latest_snoc {A} (l : list (string * A)) m p : latest l m -> latest (l ++ [p]) (enter m p).
Proof.
  intros H k. rewrite filter_app, filter_cons. unfold enter. destruct (decide (p.1 = k)) as [<-|Hne].
  - rewrite filter_nil, last_snoc. by rewrite lookup_insert.
  - rewrite filter_nil, app_nil_r, lookup_insert_ne by done. apply H.
Qed.
Lemma latest_fold {A} (l : list (string * A)) : forall l0 m, latest l0 m -> latest (l0 ++ l) (foldl enter m l).
Proof.
  induction l as [|p l IH]; intros l0 m H; cbn [foldl]; [by rewrite app_nil_r|].
  replace (l0 ++ p :: l) with ((l0 ++ [p]) ++ l) by by rewrite <- app_assoc. apply IH. by apply latest_snoc.
Qed.
Lemma latest_of {A} (l : list (string * A)) : latest l (foldl enter ∅ l).
Proof. apply (latest_fold l [] ∅), latest_nil. Qed.
Lemma latest_unique {A} (l : list (string * A)) m m' : latest l m -> latest l m' -> m = m'.
Proof. intros H H'. apply map_eq. intros k. by rewrite (H k), (H' k). Qed.
Lemma latest_iff {A} (l : list (string * A)) m : latest l m <-> m = foldl enter ∅ l.
Proof. split; [intros H; eapply latest_unique; [done|apply latest_of]|intros ->; apply latest_of]. Qed.

(** ** Variable definitions *)
Lemma var_params_cases ts : forall m,
  (exists gs more ps, ts = gs ++ more /\ param_groups gs ps /\ length more <= 1 /\ var_params ts m = Ok (Some (foldl enter m ps))) \/
  (exists gs ps k e v, ts = gs ++ [k; e; v] /\ param_groups gs ps /\ says e "=" /\ var_params ts m = UB) \/
  var_params ts m = Ok None.
Proof.
  induction ts as [ts IH] using (induction_ltof1 _ (@length token)). unfold ltof in IH. intros m.
  destruct ts as [|k [|e [|v [|s ts]]]]; [left; eexists [], _, []; split_and!; [done|constructor|cbn; lia|done]..| | |].
  - by right; right.
  - cbn [var_params]. destruct (is_val e "=") eqn:He; cbn [negb]; [|by right; right]. right; left.
    apply is_val_iff in He. exists [], [], k, e, v. split_and!; try done. constructor.
  - cbn [var_params]. destruct (is_val e "=") eqn:He; cbn [negb]; [|by right; right]. apply is_val_iff in He.
    destruct (is_val s "," || is_val s ")") eqn:Hs; [|by right; right].
    assert (says s "," \/ says s ")") as Hs' by (apply orb_true_iff in Hs as [H|H]; apply is_val_iff in H; [by left|by right]).
    destruct (IH ts ltac:(cbn; lia) (<[val k := val v]> m)) as [(gs & more & ps & -> & Hg & Hl & H)|[(gs & ps & k' & e' & v' & -> & Hg & He' & H)|H]].
    + left. exists (k :: e :: v :: s :: gs), more, ((val k, val v) :: ps). split_and!; [done|by constructor|done|done].
    + right; left. exists (k :: e :: v :: s :: gs), ((val k, val v) :: ps), k', e', v'. split_and!; [done|by constructor|done|done].
    + right; right. done.
Qed.
Lemma var_params_run gs ps : param_groups gs ps -> forall more m, var_params (gs ++ more) m = var_params more (foldl enter m ps).
Proof.
  induction 1 as [|k e v s ts ps He Hs _ IH]; intros more m; [done|]. cbn [app var_params]. apply is_val_iff in He. rewrite He. cbn [negb].
  assert (is_val s "," || is_val s ")" = true) as ->; [|by rewrite IH].
  apply orb_true_iff. destruct Hs; [left|right]; by apply is_val_iff.
Qed.
Lemma var_params_short more m : length more <= 1 -> var_params more m = Ok (Some m).
Proof. by destruct more as [|? [|? more]]; cbn; [| |lia]. Qed.

Lemma first_upper_spec t : 
  (first_upper t = Ok true <-> capital t) /\ (first_upper t = Ok false <-> plain_start t /\ ~ capital t) /\
  (first_upper t = UB <-> ~ plain_start t) /\ (first_upper t = UB \/ exists b, first_upper t = Ok b).
Proof.
  unfold first_upper, capital, plain_start, starts. destruct (t_val t) as [|c l].
  { split_and!; try done; [split; [done|]; by intros (? & ? & [=] & _)| |split; [done|intros H; destruct H; by intros ? ? [=]]|by right; eexists].
    split; [intros _; split; [by intros ? ? [=]|by intros (? & ? & [=] & _)]|done]. }
  assert (ascii7 c = true <-> code c < 128) as H7 by apply Nat.ltb_lt.
  assert (isupper c = true <-> between c "A"%char "Z"%char) as Hu.
  { unfold isupper, between. rewrite andb_true_iff, !Nat.leb_le. done. }
  destruct (ascii7 c) eqn:E7.
  - assert (code c < 128) as Hc by by apply H7. split_and!.
    + split; [intros [= H]; exists c, l; split; [done|by apply Hu]|]. intros (? & ? & [= <- <-] & H). f_equal. by apply Hu.
    + destruct (isupper c) eqn:Eu.
      * split; [done|]. intros [_ H]. destruct H. exists c, l. split; [done|by apply Hu].
      * split; [intros _|done]. split; [by intros ? ? [= <- <-]|]. intros (? & ? & [= <- <-] & H%Hu). done.
    + split; [done|]. intros H. destruct H. by intros ? ? [= <- <-].
    + right. by eexists.
  - assert (~ code c < 128) as Hc by (intros H%H7; done). split_and!.
    + split; [done|]. intros (? & ? & [= <- <-] & [_ H]). destruct Hc. replace (code "Z"%char) with 90 in H by done. lia.
    + split; [done|]. intros [H _]. by destruct Hc; eapply H.
    + split; [|done]. intros _ H. by destruct Hc; eapply H.
    + by left.
Qed.

(** A definition with at least three tokens, the second a tilde. *)
Definition defs_var (ts : list token) (v : pvar) : Prop := exists n, defines ts n v.
Lemma resolve_iff n w j rest v : says w "~" ->
  resolve_variable (n :: w :: j :: rest) = Ok (Some v) <-> defines (n :: w :: j :: rest) (val n) v.
Proof.
  intros Hw. unfold resolve_variable. cbn [lookup list_lookup idx_ obind]. destruct (first_upper_spec j) as (Hc & Hp & _ & Hor).
  destruct rest as [|x rest].
  - rewrite bool_decide_eq_true_2 by done. split.
    + intros H. apply obind_Ok in H as (b & Hb & H). destruct b.
      * injection H as <-. constructor; [done|by apply Hc].
      * cbn [drop var_params obind] in H. injection H as <-. apply Hp in Hb as [? ?]. by constructor.
    + intros H. inversion H; subst.
      * by rewrite (proj2 Hc).
      * by rewrite (proj2 Hp).
  - rewrite bool_decide_eq_false_2 by (cbn; lia). cbn [obind drop]. split.
    + intros H. apply obind_Ok in H as (o & Ho & H). destruct o as [m|]; [|done]. injection H as <-.
      rewrite drop_0 in Ho. destruct (var_params_cases rest ∅) as [(gs & more & ps & -> & Hg & Hl & E)|[(? & ? & ? & ? & ? & _ & _ & _ & E)|E]]; rewrite E in Ho; [|done..].
      assert (m = foldl enter ∅ ps) as -> by congruence. eapply def_params; [done|done|done|apply latest_of].
    + intros H. inversion H; subst. rewrite drop_0. erewrite var_params_run by done. rewrite var_params_short by done. cbn [obind].
      match goal with Hl : latest _ _ |- _ => apply latest_iff in Hl as -> end. done.
Qed.
Lemma resolve_ub n w j rest :
  resolve_variable (n :: w :: j :: rest) = UB <->
  (rest = [] /\ ~ plain_start j) \/
  exists x gs ps k e v, rest = x :: gs ++ [k; e; v] /\ param_groups gs ps /\ says e "=".
Proof.
  unfold resolve_variable. cbn [lookup list_lookup idx_ obind]. destruct (first_upper_spec j) as (Hc & Hp & Hub & Hor).
  destruct rest as [|x rest].
  - rewrite bool_decide_eq_true_2 by done. split.
    + intros H. left. split; [done|]. apply Hub. destruct Hor as [?|[b Hb]]; [done|]. rewrite Hb in H. by destruct b.
    + intros [[_ H]|(? & ? & ? & ? & ? & ? & [=] & _)]. apply Hub in H. by rewrite H.
  - rewrite bool_decide_eq_false_2 by (cbn; lia). cbn [obind drop]. rewrite drop_0. split.
    + intros H. right. destruct (var_params_cases rest ∅) as [(gs & more & ps & -> & Hg & Hl & E)|[(gs & ps & k & e & v & -> & Hg & He & E)|E]]; rewrite E in H; [done| |done].
      exists x, gs, ps, k, e, v. done.
    + intros [[[=] _]|(x' & gs & ps & k & e & v & [= <- ->] & Hg & He)]. erewrite var_params_run by done. cbn [var_params].
      apply is_val_iff in He. by rewrite He.
Qed.
Lemma defines_shape ts nm v : defines ts nm v -> exists n w j rest, ts = n :: w :: j :: rest /\ says w "~" /\ nm = val n.
Proof. intros H. inversion H; subst; eexists _, _, _, _; split_and!; done. Qed.

Lemma accepted_nil : accepted [] [].
Proof. exists []. split; [constructor|by left]. Qed.
Lemma accepted_nil_inv ts : accepted [] ts -> ts = [].
Proof. intros H%tokenize_accepted. vm_compute in H. congruence. Qed.

(** Lines without the NUL character. *)
Definition no_nul (ls : list text) : Prop := forall l c, l ∈ ls -> c ∈ l -> code c <> 0.
Lemma no_nul_cons l ls : no_nul (l :: ls) -> (forall c, c ∈ l -> code c <> 0) /\ no_nul ls.
Proof. intros H. split; [intros c; apply H; by left|]. intros l' c Hl. apply H. by right. Qed.
Lemma tokenize_iff l ts : (forall c, c ∈ l -> code c <> 0) -> tokenize l = Ok (true, ts) <-> accepted l ts.
Proof.
  intros Hn. split; [|apply tokenize_accepted]. intros H. pose proof (tokenize_sound l) as Hs. rewrite H in Hs. by apply Hs.
Qed.
Lemma ends_cons {A} (P Q : list A -> Prop) e l ls rest : (forall b, P b -> Q (l :: b)) -> ends P e ls rest -> ends Q e (l :: ls) rest.
Proof.
  intros HPQ H. inversion H; subst; [by apply ends_file, HPQ|]. rewrite app_comm_cons. by apply ends_line, HPQ.
Qed.
Lemma ends_nil_inv {A} (Q : list A -> Prop) e rest : ends Q e [] rest -> rest = [] /\ Q [].
Proof. intros H. inversion H as [|? ? ? E]; subst; [done|]. by destruct ls. Qed.
Lemma ends_suffix {A} (Q : list A -> Prop) e ls rest : ends Q e ls rest -> rest `suffix_of` ls /\ (ls <> [] -> length rest < length ls).
Proof.
  intros H. inversion H; subst.
  - split; [exists ls; by rewrite app_nil_r|]. by destruct ls; [|cbn; lia].
  - split; [exists (ls0 ++ [e]); by rewrite <- app_assoc|]. rewrite app_length. cbn. lia.
Qed.
Lemma no_nul_suffix ls ls' : no_nul ls -> ls' `suffix_of` ls -> no_nul ls'.
Proof. intros H [l ->] x c Hx. apply H. apply elem_of_app. by right. Qed.

Lemma read_class_iff ls : no_nul ls -> forall c c' rest,
  read_class ls c = Ok (true, c', rest) <-> exists vs, ends (fun b => class_body b vs) [] ls rest /\ c' = foldl enter c vs.
Proof.
  induction ls as [|l ls IH]; intros Hn c c' rest.
  { cbn [read_class]. split.
    - intros [= <- <-]. exists []. split; [apply ends_file; constructor|done].
    - intros (vs & H & ->). apply ends_nil_inv in H as [-> H]. inversion H; subst. done. }
  apply no_nul_cons in Hn as [Hl Hn]. specialize (IH Hn). cbn [read_class]. destruct l as [|c0 l0] eqn:El.
  { split.
    - intros [= <- <-]. exists []. split; [|done]. apply (ends_line _ _ []). constructor.
    - intros (vs & H & ->). inversion H as [? Hb|b ? Hb E]; subst.
      + inversion Hb; subst; [done|]. match goal with H : accepted [] _ |- _ => apply accepted_nil_inv in H as -> end.
        match goal with H : defines [] _ _ |- _ => inversion H end.
      + destruct b as [|l b]; [injection E as <-; by inversion Hb; subst|]. injection E as -> _. inversion Hb; subst; [done|].
        match goal with H : accepted [] _ |- _ => apply accepted_nil_inv in H as -> end.
        match goal with H : defines [] _ _ |- _ => inversion H end. }
  rewrite <- El in *. assert (l <> []) as Hne by by rewrite El. clear El c0 l0. split.
  - intros H. apply obind_Ok in H as ([b ts] & Ht & H). destruct b; cbn [negb] in H; [|done]. apply tokenize_iff in Ht; [|done].
    destruct ts as [|t0 ts'] eqn:Ets.
    + apply IH in H as (vs & He & ->). exists vs. split; [|done]. eapply ends_cons; [|done]. intros b Hb. by constructor.
    + rewrite <- Ets in *. destruct (length ts <? 3) eqn:E3; [done|]. apply Nat.ltb_ge in E3.
      destruct ts' as [|t1 [|t2 rest']]; [subst; cbn in E3; lia..|]. rewrite Ets in H at 1. cbn [lookup list_lookup idx_ obind] in H.
      destruct (is_val t1 "~") eqn:Hw; cbn [negb] in H; [|done]. apply is_val_iff in Hw. apply obind_Ok in H as (o & Ho & H).
      destruct o as [v|]; [|done]. rewrite Ets in Ho. apply resolve_iff in Ho; [|done]. apply IH in H as (vs & He & ->).
      exists ((val t0, v) :: vs). split; [|done]. eapply ends_cons; [|done]. intros b Hb. eapply cb_var; [by subst|done|done].
  - intros (vs & He & ->).
    assert (exists vs' , (accepted l [] /\ vs = vs' \/ exists ts n v, accepted l ts /\ defines ts n v /\ vs = (n, v) :: vs') /\
      ends (fun b => class_body b vs') [] ls rest) as (vs' & Hcase & He').
    { inversion He as [? Hb|b ? Hb E]; subst.
      - inversion Hb; subst; eexists; (split; [|by apply ends_file]); [by left|right; eauto 10].
      - destruct b as [|l' b]; [by injection E|]. injection E as -> <-. inversion Hb; subst; eexists; (split; [|by apply ends_line]); [by left|right; eauto 10]. }
    destruct Hcase as [[Ha ->]|(ts & n & v & Ha & Hd & ->)].
    + rewrite (tokenize_accepted _ _ Ha). cbn [obind negb]. apply IH. eauto.
    + rewrite (tokenize_accepted _ _ Ha). cbn [obind negb]. destruct (defines_shape _ _ _ Hd) as (t0 & w & j & rest' & -> & Hw & ->).
      replace (length (t0 :: w :: j :: rest') <? 3) with false by (symmetry; apply Nat.ltb_ge; cbn; lia).
      cbn [lookup list_lookup idx_ obind]. apply is_val_iff in Hw as Hw'. rewrite Hw'. cbn [negb].
      rewrite (proj2 (resolve_iff t0 w j rest' v Hw) Hd). cbn [obind]. apply IH. eauto.
Qed.

(** ** Queries *)
Lemma class_path_iff ts : forall p, class_path ts = Some p <-> path_written ts p.
Proof.
  induction ts as [ts IH] using (induction_ltof1 _ (@length token)). unfold ltof in IH. intros p.
  destruct ts as [|t [|d ts]]; cbn [class_path].
  - split; [intros [= <-]; constructor|]. by inversion 1.
  - split; [intros [= <-]; constructor|]. by inversion 1.
  - destruct (is_val d ".") eqn:Hd.
    + apply is_val_iff in Hd. destruct (class_path ts) as [q|] eqn:Hq; cbn.
      * split; [intros [= <-]; constructor; [done|apply IH; [cbn; lia|done]]|]. inversion 1; subst.
        match goal with H : path_written ts _ |- _ => apply IH in H; [|cbn; lia] end. congruence.
      * split; [done|]. inversion 1; subst. match goal with H : path_written ts _ |- _ => apply IH in H; [|cbn; lia] end. congruence.
    + apply is_val_not in Hd. split; [done|]. by inversion 1.
Qed.

Definition enter_item (q : pquery) (i : item) : pquery :=
  match i with
  | From_ r => PQuery r (pq_fields q)
  | Field n p => PQuery (pq_record q) (<[n := p]> (pq_fields q))
  end.
Lemma take_item (l : list token) : 3 <= length l -> exists t ts a n, l = (t :: ts) ++ [a; n] /\ take (length l - 2) l = t :: ts /\ last l = Some n.
Proof.
  intros H. destruct l as [|n l _] using rev_ind; [cbn in H; lia|]. destruct l as [|a l _] using rev_ind; [cbn in H; lia|].
  destruct l as [|t ts]; [cbn in H; lia|]. exists t, ts, a, n. rewrite <- app_assoc. split; [done|]. split; [|by rewrite app_assoc, last_snoc].
  rewrite app_length. change (length ([a] ++ [n])) with 2. replace (length (t :: ts) + 2 - 2) with (length (t :: ts)) by lia. by rewrite take_app.
Qed.
Lemma read_query_iff ls : no_nul ls -> forall q q' rest,
  read_query ls q = Ok (true, q', rest) <->
  exists is, ends (fun b => query_body b is) [] ls rest /\ one_from_items (pq_record q) is /\ q' = foldl enter_item q is.
Proof.
  induction ls as [|l ls IH]; intros Hn c c' rest.
  { cbn [read_query]. split.
    - intros [= <- <-]. exists []. split; [apply ends_file; constructor|done].
    - intros (vs & H & _ & ->). apply ends_nil_inv in H as [-> H]. inversion H; subst. done. }
  apply no_nul_cons in Hn as [Hl Hn]. specialize (IH Hn). cbn [read_query]. destruct l as [|c0 l0] eqn:El.
  { split.
    - intros [= <- <-]. exists []. split; [|done]. apply (ends_line _ _ []). constructor.
    - intros (vs & H & _ & ->). inversion H as [? Hb|b ? Hb E]; subst.
      + inversion Hb; subst; [done|]. match goal with H : accepted [] _ |- _ => apply accepted_nil_inv in H as -> end.
        match goal with H : item_written [] _ |- _ => inversion H end.
      + destruct b as [|l b]; [injection E as <-; by inversion Hb; subst|]. injection E as -> _. inversion Hb; subst; [done|].
        match goal with H : accepted [] _ |- _ => apply accepted_nil_inv in H as -> end.
        match goal with H : item_written [] _ |- _ => inversion H end. }
  rewrite <- El in *. assert (l <> []) as Hne by by rewrite El. clear El c0 l0. split.
  - intros H. apply obind_Ok in H as ([b ts] & Ht & H). destruct b; cbn [negb] in H; [|done]. apply tokenize_iff in Ht; [|done].
    destruct ts as [|t0 ts'] eqn:Ets.
    + apply IH in H as (vs & He & ? & ->). exists vs. split; [|done]. eapply ends_cons; [|done]. intros b Hb. by constructor.
    + rewrite <- Ets in *. destruct (is_val t0 "from") eqn:Hf.
      * apply is_val_iff in Hf. destruct (length ts =? 2) eqn:E2; cbn [negb] in H; [|done]. apply Nat.eqb_eq in E2.
        destruct (bool_decide (pq_record c = ""%string)) eqn:Er; cbn [negb] in H; [|done]. apply bool_decide_eq_true in Er.
        destruct ts' as [|t1 [|? ?]]; [subst; cbn in E2; lia| |subst; cbn in E2; lia]. rewrite Ets in H at 1. cbn [lookup list_lookup idx_ obind] in H.
        apply IH in H as (is & He & Ho & ->). exists (From_ (val t1) :: is). split; [|by split].
        eapply ends_cons; [|done]. intros b Hb. eapply qb_item; [done|subst; by constructor|done].
      * apply is_val_not in Hf. destruct (length ts <? 3) eqn:E3; [done|]. apply Nat.ltb_ge in E3.
        destruct (take_item ts E3) as (t & ts1 & a & n & E & Etk & Hlast). rewrite Hlast in H. cbn [idx_ obind] in H. rewrite Etk in H.
        destruct (class_path (t :: ts1)) as [p|] eqn:Hp; [|done]. apply class_path_iff in Hp. apply IH in H as (is & He & Ho & ->).
        exists (Field (val n) p :: is). split; [|by split]. eapply ends_cons; [|done]. intros b Hb. eapply qb_item; [done| |done].
        rewrite E. constructor; [|done]. rewrite Ets in E. injection E as -> _. done.
  - intros (vs & He & Ho & ->).
    assert (exists vs' , (accepted l [] /\ vs = vs' \/ exists ts i, accepted l ts /\ item_written ts i /\ vs = i :: vs') /\
      ends (fun b => query_body b vs') [] ls rest) as (vs' & Hcase & He').
    { inversion He as [? Hb|b ? Hb E]; subst.
      - inversion Hb; subst; eexists; (split; [|by apply ends_file]); [by left|right; eauto 10].
      - destruct b as [|l' b]; [by injection E|]. injection E as -> <-. inversion Hb; subst; eexists; (split; [|by apply ends_line]); [by left|right; eauto 10]. }
    destruct Hcase as [[Ha ->]|(ts & i & Ha & Hi & ->)].
    + rewrite (tokenize_accepted _ _ Ha). cbn [obind negb]. apply IH. eauto.
    + rewrite (tokenize_accepted _ _ Ha). cbn [obind negb]. inversion Hi as [f r Hf|t ts1 p a n Hf Hp]; subst.
      * apply is_val_iff in Hf. rewrite Hf. cbn [length Nat.eqb negb lookup list_lookup idx_ obind]. destruct Ho as [Hr Ho].
        rewrite bool_decide_eq_true_2 by done. cbn [negb]. apply IH. eauto.
      * cbn [app]. apply is_val_not in Hf. rewrite Hf.
        assert (3 <= length (t :: ts1 ++ [a; n])) as H3 by (cbn; rewrite app_length; cbn; lia).
        replace (length (t :: ts1 ++ [a; n]) <? 3) with false by (symmetry; by apply Nat.ltb_ge).
        destruct (take_item (t :: ts1 ++ [a; n]) H3) as (t' & ts1' & a' & n' & E & Etk & Hlast). rewrite Hlast, Etk. cbn [idx_ obind].
        change (t :: ts1 ++ [a; n]) with ((t :: ts1) ++ [a; n]) in E. apply app_inj_2 in E as [E1 E2]; [|done]. injection E2 as <- <-. rewrite <- E1.
        rewrite (proj2 (class_path_iff _ p) Hp). apply IH. eauto.
Qed.

(** ** Files *)
Definition enter_block (s : pschema) (b : block) : pschema :=
  match b with
  | BClass n vs => PSchema (<[n := foldl enter ∅ vs]> (ps_classes s)) (ps_query s)
  | BQuery is => PSchema (ps_classes s) (foldl enter_item (ps_query s) is)
  end.
Lemma record_of_fold is : forall q, pq_record (foldl enter_item q is) = record_of (pq_record q) is.
Proof.
  induction is as [|i is IH] using rev_ind; intros q; [done|]. rewrite foldl_app. cbn [foldl]. unfold record_of, froms. rewrite omap_app. cbn [omap list_omap].
  destruct i as [r|n p]; cbn [enter_item pq_record]; [by rewrite last_snoc|]. rewrite app_nil_r. apply IH.
Qed.
Lemma ends_shorter {A} (Q : list A -> Prop) e ls rest : ends Q e ls rest -> length rest <= length ls.
Proof. intros H%ends_suffix. destruct H as [[l ->] _]. rewrite app_length. lia. Qed.

Lemma read_pschema_iff fuel : forall ls s s', no_nul ls -> length ls < fuel ->
  read_pschema_from fuel ls s = Ok (true, s') <->
  exists bs, blocks ls bs /\ one_from (pq_record (ps_query s)) bs /\ s' = foldl enter_block s bs.
Proof.
  induction fuel as [|fuel IH]; intros ls s s' Hn Hf; [lia|]. cbn [read_pschema_from]. destruct ls as [|l ls].
  { split; [intros [= <-]; exists []; split_and!; [constructor|done|done]|]. intros (bs & H & _ & ->). by inversion H. }
  apply no_nul_cons in Hn as [Hl Hn]. cbn [length] in Hf. split.
  - intros H. apply obind_Ok in H as ([b ts] & Ht & H). destruct b; cbn [negb] in H; [|done]. apply tokenize_iff in Ht; [|done].
    destruct ts as [|t0 ts]; [apply IH in H as (bs & Hb & Ho & ->); [exists bs; split; [by constructor|done]|done|lia]|].
    destruct (bool_decide (t_type t0 = TIdent)) eqn:Ei; cbn [negb] in H; [|done]. apply bool_decide_eq_true in Ei.
    destruct (is_val t0 "class") eqn:Ec.
    + apply is_val_iff in Ec. destruct (length (t0 :: ts) =? 2) eqn:E2; cbn [negb] in H; [|done]. apply Nat.eqb_eq in E2.
      destruct ts as [|n [|? ?]]; [cbn in E2; lia| |cbn in E2; lia]. cbn [lookup list_lookup idx_ obind] in H.
      apply obind_Ok in H as (up & Hup & H). apply obind_Ok in H as ([[ok c] rest] & Hc & H). destruct ok; cbn [negb] in H; [|done].
      apply read_class_iff in Hc as (vs & He & ->); [|done]. pose proof (ends_suffix _ _ _ _ He) as [Hsuf _]. pose proof (ends_shorter _ _ _ _ He).
      apply IH in H as (bs & Hb & Ho & ->); [|by eapply no_nul_suffix|lia]. exists (BClass (val n) vs :: bs). split_and!; [|done|done].
      econstructor; [| |done|done].
      * destruct t0 as [ty v0]. unfold says in Ec. cbn in Ei, Ec. by subst.
      * destruct (first_upper_spec n) as (H1 & H2 & H3 & _). destruct up; [|by apply H2].
        intros c l' E. apply H1 in Hup as (c' & l'' & E' & [_ Hb']). rewrite E in E'. injection E' as <- <-. replace (code "Z"%char) with 90 in Hb' by done. lia.
    + destruct (is_val t0 "observe") eqn:Eo; [|done]. apply is_val_iff in Eo.
      destruct (bool_decide (pq_record (ps_query s) = ""%string)) eqn:Er; cbn [negb] in H; [|done]. apply bool_decide_eq_true in Er.
      destruct (length (t0 :: ts) =? 1) eqn:E1; cbn [negb] in H; [|done]. apply Nat.eqb_eq in E1. destruct ts; [|cbn in E1; lia].
      apply obind_Ok in H as ([[ok q] rest] & Hq & H). destruct ok; cbn [negb] in H; [|done].
      apply read_query_iff in Hq as (is & He & Hof & ->); [|done]. pose proof (ends_suffix _ _ _ _ He) as [Hsuf _]. pose proof (ends_shorter _ _ _ _ He).
      apply IH in H as (bs & Hb & Ho & ->); [|by eapply no_nul_suffix|lia]. exists (BQuery is :: bs). cbn [ps_query] in Ho. rewrite record_of_fold in Ho.
      split_and!; [|by split_and!|done]. econstructor; [|done|done]. destruct t0 as [ty v0]. unfold says in Eo. cbn in Ei, Eo. by subst.
  - intros (bs & Hb & Ho & ->). inversion Hb as [|? ? ? Ha Hb'|? n ? rest vs bs' Ha Hp He Hb'|? ? rest is bs' Ha He Hb']; subst.
    + rewrite (tokenize_accepted _ _ Ha). cbn [obind negb]. apply IH; [done|lia|eauto].
    + rewrite (tokenize_accepted _ _ Ha). cbn [obind negb]. rewrite bool_decide_eq_true_2 by done. cbn [negb].
      replace (is_val _ "class") with true by done. cbn [length Nat.eqb negb lookup list_lookup idx_ obind].
      destruct (first_upper_spec n) as (_ & _ & H3 & [H4|[up Hup]]); [by apply H3 in H4|]. rewrite Hup. cbn [obind].
      rewrite (proj2 (read_class_iff ls Hn ∅ (foldl enter ∅ vs) rest)) by eauto. cbn [obind negb].
      pose proof (ends_suffix _ _ _ _ He) as [Hsuf _]. pose proof (ends_shorter _ _ _ _ He). apply IH; [by eapply no_nul_suffix|lia|]. exists bs'. done.
    + rewrite (tokenize_accepted _ _ Ha). cbn [obind negb]. rewrite bool_decide_eq_true_2 by done. cbn [negb].
      replace (is_val _ "class") with false by done. replace (is_val _ "observe") with true by done. cbn [length Nat.eqb].
      destruct Ho as (Hr & Ho1 & Ho2). rewrite bool_decide_eq_true_2 by done. cbn [negb].
      rewrite (proj2 (read_query_iff ls Hn (ps_query s) (foldl enter_item (ps_query s) is) rest)) by eauto. cbn [obind negb].
      pose proof (ends_suffix _ _ _ _ He) as [Hsuf _]. pose proof (ends_shorter _ _ _ _ He). apply IH; [by eapply no_nul_suffix|lia|]. exists bs'.
      cbn [ps_query]. by rewrite record_of_fold.
Qed.

(** What the blocks say is what is entered. *)
Lemma fold_items_fields is : forall q, pq_fields (foldl enter_item q is) = foldl enter (pq_fields q) (fields is).
Proof. induction is as [|[r|n p] is IH]; intros q; [done|..]; cbn [foldl]; rewrite IH; done. Qed.
Lemma fold_blocks_query bs : forall s, ps_query (foldl enter_block s bs) = foldl enter_item (ps_query s) (query_items bs).
Proof.
  induction bs as [|[n vs|is] bs IH]; intros s; [done|..]; cbn [foldl]; rewrite IH; [done|]. unfold query_items. cbn [map concat]. by rewrite foldl_app.
Qed.
Lemma fold_blocks_classes bs : forall s, ps_classes (foldl enter_block s bs) =
  foldl enter (ps_classes s) (map (fun p => (p.1, foldl enter ∅ p.2)) (class_blocks bs)).
Proof. induction bs as [|[n vs|is] bs IH]; intros s; [done|..]; cbn [foldl]; rewrite IH; done. Qed.
Lemma filter_keys {A B} (f : A -> B) (l : list (string * A)) n :
  filter (fun p => p.1 = n) (map (fun p => (p.1, f p.2)) l) = map (fun p => (p.1, f p.2)) (filter (fun p => p.1 = n) l).
Proof.
  induction l as [|p l IH]; [done|]. cbn [map]. rewrite !filter_cons. cbn [fst]. destruct (decide (p.1 = n)); cbn [map]; by rewrite IH.
Qed.
Lemma says_schema_iff bs s : says_schema bs s <-> s = foldl enter_block pschema_empty bs.
Proof.
  assert (forall n, ps_classes (foldl enter_block pschema_empty bs) !! n =
    (fun p => foldl enter ∅ p.2) <$> last (filter (fun p => p.1 = n) (class_blocks bs))) as Hcl.
  { intros n. rewrite fold_blocks_classes. cbn [ps_classes pschema_empty]. rewrite (latest_of _ n), filter_keys.
    change (map (fun p : string * list (string * pvar) => (p.1, foldl enter ∅ p.2))) with
      (fmap (M := list) (fun p : string * list (string * pvar) => (p.1, foldl enter (∅ : gmap string pvar) p.2))).
    rewrite fmap_last. by destruct (last _). }
  split.
  - intros (H1 & H2 & H3). destruct s as [cs [r fs]]. cbn [ps_classes ps_query pq_record pq_fields] in *.
    destruct (foldl enter_block pschema_empty bs) as [cs' [r' fs']] eqn:E.
    assert (cs = cs') as ->.
    { apply map_eq. intros n. specialize (Hcl n). cbn [ps_classes] in Hcl. etrans; [|symmetry; exact Hcl]. destruct (last _) as [[n' vs]|] eqn:El; cbn.
      - assert (n' = n) as ->. { apply last_Some_elem_of, elem_of_list_filter in El as [Hn _]. done. }
        apply H1. exists vs. split; [done|apply latest_of].
      - destruct (cs !! n) as [c|] eqn:Ec; [|done]. apply H1 in Ec as (vs & Hvs & _). congruence. }
    pose proof (fold_blocks_query bs pschema_empty) as Hq. rewrite E in Hq. cbn [ps_query] in Hq.
    f_equal. pose proof (f_equal pq_record Hq) as Hr. pose proof (f_equal pq_fields Hq) as Hfs. rewrite record_of_fold in Hr. rewrite fold_items_fields in Hfs.
    cbn in Hr, Hfs. apply latest_iff in H3. f_equal; congruence.
  - intros ->. split_and!.
    + intros n c. rewrite Hcl. destruct (last _) as [[n' vs]|] eqn:El; cbn.
      * assert (n' = n) as ->. { apply last_Some_elem_of, elem_of_list_filter in El as [Hn _]. done. }
        split; [intros H; exists vs; split; [done|]; apply latest_iff; congruence|]. intros (vs' & [= <-] & H). apply latest_iff in H. congruence.
      * split; [done|]. by intros (? & [=] & _).
    + rewrite fold_blocks_query. apply record_of_fold.
    + rewrite fold_blocks_query, fold_items_fields. apply latest_of.
Qed.
