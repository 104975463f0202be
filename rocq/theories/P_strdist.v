(** StringCat and adapters are lawful; splitting and joining. *)
From Coq Require Import String Ascii.
From stdpp Require Import gmap list strings.
From Coq Require Import ZArith Reals Lra Lia.
From Verif Require Import M_base M_math M_dist M_distributions M_text M_io M_clusters M_schema M_align M_strdist S_math S_dist S_relation
  P_base P_math P_dist P_dirichlet P_clusters.
Local Open Scope R_scope.

(** * StringCat *)
Lemma find_index_Some x l i : find_index x l = Some i -> l !! i = Some x.
Proof.
  revert i. induction l as [|y l IH]; intros i; simpl; [done|]. unfold teqb. case_bool_decide as E.
  - intros [= <-]. by subst.
  - intros (j & Hj & ->)%fmap_Some. by apply IH.
Qed.
Lemma find_index_None x l : find_index x l = None <-> x ∉ l.
Proof.
  induction l as [|y l IH]; simpl; [split; [intros _; apply not_elem_of_nil|done]|]. unfold teqb. case_bool_decide as E.
  - split; [done|]. intros Hn. exfalso. apply Hn. subst. by left.
  - rewrite fmap_None, IH, not_elem_of_cons. naive_solver.
Qed.
Lemma find_index_NoDup x l i : NoDup l -> l !! i = Some x -> find_index x l = Some i.
Proof.
  intros Hnd Hi. destruct (find_index x l) as [j|] eqn:E.
  - f_equal. apply find_index_Some in E. by eapply NoDup_lookup.
  - apply find_index_None in E. exfalso. apply E. by eapply elem_of_list_lookup_2.
Qed.

Section stringcat.
Context (lg : R -> R) (pick : list alignment -> nat) (strings : list text).
Definition index_in (x : text) : Z := Z.of_nat (default 0%nat (find_index x strings)).
Definition sc_of (a : R) (l : list text) : stringcat :=
  SC strings (dc_of (length strings) a (index_in <$> l)) (INR (length l)).
Lemma index_in_cats x : x ∈ strings -> in_cats (length strings) (index_in x).
Proof.
  intros Hx. unfold index_in, in_cats. destruct (find_index x strings) as [i|] eqn:E.
  - apply find_index_Some, lookup_lt_Some in E. simpl. lia.
  - by apply find_index_None in E.
Qed.
Lemma index_in_inj x y : x ∈ strings -> y ∈ strings -> index_in x = index_in y -> x = y.
Proof.
  unfold index_in. intros Hx Hy E.
  destruct (find_index x strings) as [i|] eqn:Ex; [|by apply find_index_None in Ex].
  destruct (find_index y strings) as [j|] eqn:Ey; [|by apply find_index_None in Ey].
  simpl in E. assert (i = j) as -> by lia. apply find_index_Some in Ex, Ey. congruence.
Qed.
Lemma occurrences_index x l : x ∈ strings -> Forall (fun y => y ∈ strings) l ->
  occurrences (index_in x) (index_in <$> l) = occurrences x l.
Proof.
  intros Hx Hl. induction Hl as [|y l Hy Hl IH]; [done|]. rewrite fmap_cons, !occurrences_cons, IH.
  destruct (decide (y = x)) as [->|Hne]; [by rewrite decide_True|]. rewrite decide_False; [done|].
  intros E. by apply Hne, index_in_inj.
Qed.
Lemma sc_index s x : sc_strings s = strings ->
  string_to_index s x = if decide (x ∈ strings) then Ok (index_in x) else Exits.
Proof.
  intros Hs. unfold string_to_index, index_in. rewrite Hs. destruct (find_index x strings) as [i|] eqn:E.
  - rewrite decide_True; [done|]. apply find_index_Some in E. by eapply elem_of_list_lookup_2.
  - rewrite decide_False; [done|]. by apply find_index_None.
Qed.
Definition sc_lawful : lawful (sc_dist lg pick strings).
Proof.
  refine {| law_hyp := pos1; law_of := (fun h l => sc_of (`h) l) : pos1 -> _ -> d_state (sc_dist lg pick strings);
            law_adm := fun x => x ∈ strings |}.
  - intros h l l' HP. unfold sc_of. rewrite (Permutation_length HP). f_equal. apply (law_perm _ (dc_lawful lg (length strings)) h). by apply fmap_Permutation.
  - intros h l v s' _. cbn [d_inc sc_dist]. unfold sc_incorporate. rewrite sc_index by done.
    destruct (decide (v ∈ strings)) as [Hv|Hv]; [|split; [done|by intros [? _]]]. cbn [obind sc_of sc_dc sc_strings sc_N].
    rewrite dc_inc_of by (by apply index_in_cats). cbn [obind].
    assert (SC strings (dc_of (length strings) (`h) (index_in v :: (index_in <$> l))) (INR (length l) + 1) = sc_of (`h) (v :: l)) as ->.
    { unfold sc_of. f_equal. by rewrite <- S_INR. }
    split; [by intros [= <-]|by intros [_ ->]].
  - intros h l v Hv. apply Forall_cons in Hv as [Hv _]. cbn [d_uninc sc_dist]. unfold sc_unincorporate, sc_incorporate.
    rewrite sc_index by done. rewrite decide_True by done. cbn [obind sc_of sc_dc sc_strings sc_N]. rewrite fmap_cons.
    pose proof (dc_uninc_of (length strings) (`h) (index_in <$> l) (index_in v) (index_in_cats v Hv)) as E. unfold dc_unincorporate in E. rewrite E. cbn [obind].
    unfold sc_of. change (length (v :: l)) with (S (length l)). rewrite S_INR. do 2 f_equal. lra.
  - intros h l. apply R_is_zero_INR.
  - intros h l. apply R_is_pos_INR.
  - intros sp r. exists (exist _ 1 Rlt_0_1). cbn [d_new sc_dist fst proj1_sig]. unfold sc_new, sc_of. f_equal.
    unfold dc_new, dc_of. f_equal.
    unfold count_list. apply list_eq. intros i. rewrite list_lookup_fmap.
    destruct (decide (i < length strings)%nat).
    + rewrite lookup_replicate_2, lookup_seq_lt by done. done.
    + rewrite !lookup_ge_None_2; [done| |]; rewrite ?seq_length, ?replicate_length; lia.
  - intros h l r s r' Hadm E. cbn [d_resample sc_dist] in E. unfold sc_transition in E.
    apply obind_Ok in E as ([d r1] & E & [= <- <-]). cbn [sc_of sc_dc sc_strings sc_N] in *. unfold dc_transition in E.
    apply obind_Ok in E as ([a r2] & E & [= <- <-]).
    apply grid_transition_Ok in E. exists (exist _ a (alpha_grid_pos a E)). done.
  - intros h. cbn [d_score sc_dist]. unfold sc_score, sc_of. apply dc_score_empty.
Defined.
End stringcat.

(** * Adapters *)
Section adapter.
Context {S : Type} (parse : text -> outcome S) (show : S -> text) (D : Dist S).
Definition parsed (x : text) : option S := match parse x with Ok v => Some v | _ => None end.
Definition values (l : list text) : list S := omap parsed l.
Lemma values_perm l l' : l ≡ₚ l' -> values l ≡ₚ values l'.
Proof.
  unfold values. induction 1 as [|x l l' _ IH|x y l|l l' l'' _ IH1 _ IH2]; csimpl; [done| | |by etransitivity].
  - destruct (parsed x); [by constructor|done].
  - destruct (parsed x), (parsed y); [apply perm_swap|reflexivity..].
Qed.
Lemma values_cons x v l : parse x = Ok v -> values (x :: l) = v :: values l.
Proof. intros E. unfold values. csimpl. unfold parsed at 1. by rewrite E. Qed.

Context (L : lawful D).
Definition ad_of (h : law_hyp L) (l : list text) : adapter D := AD (law_of L h (values l)) (INR (length l)).
Definition ad_adm (x : text) : Prop := exists v, parse x = Ok v /\ law_adm L v.
Lemma ad_adm_values l : Forall ad_adm l -> Forall (law_adm L) (values l) /\ length (values l) = length l.
Proof.
  induction 1 as [|x l (v & E & Hv) Hl [IH1 IH2]]; [split; [constructor|reflexivity]|]. rewrite (values_cons _ _ _ E). simpl. split; [by constructor|by rewrite IH2].
Qed.
Definition ad_lawful : lawful (ad_dist parse show D).
Proof.
  refine {| law_hyp := law_hyp L; law_of := (ad_of : law_hyp L -> _ -> d_state (ad_dist parse show D)); law_adm := ad_adm |}.
  - intros h l l' HP. unfold ad_of. rewrite (Permutation_length HP). f_equal. apply (law_perm D L). by apply values_perm.
  - intros h l v s' Ha. cbn [d_inc ad_dist]. unfold ad_inc, ad_of. cbn [ad_d ad_N]. pose proof (ad_adm_values l Ha) as [Hv _]. split.
    + intros E. apply obind_Ok in E as (x & Ex & E). apply obind_Ok in E as (d & Ed & [= <-]).
      apply (law_inc D L) in Ed as [Hx ->]; [|done]. split; [by exists x|]. rewrite (values_cons _ _ _ Ex). change (length (v :: l)) with (Datatypes.S (length l)). by rewrite S_INR.
    + intros [(x & Ex & Hx) ->]. rewrite Ex. cbn [obind]. rewrite (proj2 (law_inc D L h (values l) x _ Hv)) by done. cbn [obind].
      rewrite (values_cons _ _ _ Ex). change (length (v :: l)) with (Datatypes.S (length l)). by rewrite S_INR.
  - intros h l v Ha. pose proof (ad_adm_values _ Ha) as [Hv _]. apply Forall_cons in Ha as [(x & Ex & Hx) _].
    cbn [d_uninc ad_dist]. unfold ad_uninc, ad_of. cbn [ad_d ad_N]. rewrite Ex. cbn [obind]. rewrite (values_cons _ _ _ Ex) in *.
    rewrite (law_uninc D L) by done. cbn [obind]. change (length (v :: l)) with (Datatypes.S (length l)). rewrite S_INR. do 2 f_equal. lra.
  - intros h l. apply R_is_zero_INR.
  - intros h l. apply R_is_pos_INR.
  - intros sp r. destruct (law_new D L sp r) as [h Hh]. exists h. cbn [d_new ad_dist]. destruct (d_new D sp r) as [d r']. simpl in *. by subst.
  - intros h l r s r' Hadm E. cbn [d_resample ad_dist] in E. unfold ad_resample in E. apply obind_Ok in E as ([d r1] & E & [= <- <-]).
    cbn [ad_of ad_d] in E. apply (law_resample D L) in E as [h' ->]; [by exists h'|]. exact (proj1 (ad_adm_values l Hadm)).
  - intros h. apply (law_score_empty D L).
Defined.

Lemma history_values a l : dist_history (ad_dist parse show D) a l ->
  Forall (fun x => exists v, parse x = Ok v) l /\ dist_history D (ad_d a) (values l) /\ ad_N a = INR (length l).
Proof.
  induction 1 as [sp r|s l v s' Hh (Hf & IH & HN) Hi|s l v l' s' Hh (Hf & IH & HN) Hp Hu|s l r s' r' Hh (Hf & IH & HN) Hr].
  - split; [done|]. cbn [d_new ad_dist]. pose proof (hist_new D sp r) as H. destruct (d_new D sp r) as [d r']. done.
  - cbn [d_inc ad_dist] in Hi. unfold ad_inc in Hi. apply obind_Ok in Hi as (x & Ex & E). apply obind_Ok in E as (d & Ed & [= <-]).
    split; [constructor; [by exists x|done]|]. cbn [ad_d ad_N]. rewrite (values_cons _ _ _ Ex). split; [by eapply hist_inc|].
    rewrite HN. change (length (v :: l)) with (Datatypes.S (length l)). by rewrite S_INR.
  - cbn [d_uninc ad_dist] in Hu. unfold ad_uninc in Hu. apply obind_Ok in Hu as (x & Ex & E). apply obind_Ok in E as (d & Ed & [= <-]).
    rewrite Hp in Hf. apply Forall_cons in Hf as [_ Hf]. split; [done|]. cbn [ad_d ad_N]. split.
    + eapply hist_uninc; [done| |done]. rewrite <- (values_cons _ _ _ Ex). by apply values_perm.
    + rewrite HN, Hp. change (length (v :: l')) with (Datatypes.S (length l')). rewrite S_INR. lra.
  - cbn [d_resample ad_dist] in Hr. unfold ad_resample in Hr. apply obind_Ok in Hr as ([d r1] & Hr & [= <- <-]).
    split; [done|]. split; [|done]. by eapply hist_resample.
Qed.
End adapter.

(** * Splitting *)
Fixpoint join_with (c : ascii) (l : list text) : text :=
  match l with [] => [] | [w] => w | w :: l => w ++ c :: join_with c l end%list.
Lemma split_on_plain c w : c ∉ w -> split_on c w = [w].
Proof.
  induction w as [|d w IH]; [done|]. intros [Hd Hw]%not_elem_of_cons. simpl. unfold ceqb. rewrite bool_decide_false by done.
  by rewrite IH.
Qed.
Lemma split_on_app c w l : c ∉ w -> split_on c (w ++ c :: l)%list = w :: split_on c l.
Proof.
  induction w as [|d w IH]; intros Hw; simpl.
  - unfold ceqb. by rewrite bool_decide_true.
  - apply not_elem_of_cons in Hw as [Hd Hw]. unfold ceqb. rewrite bool_decide_false by done. by rewrite IH.
Qed.
Lemma split_join c l : l <> [] -> Forall (fun w => c ∉ w) l -> split_on c (join_with c l) = l.
Proof.
  intros Hne Hl. induction Hl as [|w l Hw Hl IH]; [done|]. destruct l as [|w' l]; [by apply split_on_plain|].
  cbn [join_with]. rewrite split_on_app by done. f_equal. by apply IH.
Qed.
