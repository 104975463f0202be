(** HIRM: construction, and histories of calls. *)
From Coq Require Import String Ascii.
From stdpp Require Import gmap strings sorting.
From Coq Require Import ZArith Reals Lia.
From Verif Require Import M_base M_math M_crp M_domain M_dist M_relation M_noisy M_irm M_logp M_hirm
  S_crp S_crp_state S_relation S_irm S_hirm P_base P_math P_crp P_crp_score P_domain P_relation P_any P_irm P_irm_schema
  P_irm_history P_hirm P_hirm_move P_hirm_trans P_hirm_history.

Section Ctor.
Context {V : Type}.
Implicit Types (h : hirm V) (ir : irm V) (A : clustering) (t ty : t_rel V) (a : seating).

Lemma hirm_holds_empty : hirm_holds (@hirm_empty V) ∅.
Proof.
  split; simpl.
  - split; simpl; [done|by rewrite map_size_empty|]. intros tb. rewrite lookup_empty. rewrite decide_True; [done|].
    apply set_eq. intros i. rewrite elem_of_customers_at, lookup_empty. set_solver.
  - intros name rc. by rewrite !lookup_empty.
  - intros rc. rewrite !lookup_empty. split; by intros [? ?].
  - intros name. rewrite !lookup_empty. split; by intros [? ?].
  - intros name [? H]. by rewrite lookup_empty in H.
  - intros name ty H. by rewrite lookup_empty in H.
  - intros name ty H. by rewrite lookup_empty in H.
  - intros tb. rewrite lookup_empty. apply set_eq. intros i. rewrite elem_of_customers_at, lookup_empty. set_solver.
Qed.

(** ** The noisy relations listed for a base *)
Lemma push_listed (b2n : gmap string (list string)) ty name base n :
  (exists ns, h_push_noisy b2n ty name !! base = Some ns /\ n ∈ ns) <->
  (exists ns, b2n !! base = Some ns /\ n ∈ ns) \/ (n = name /\ t_base ty = Some base).
Proof.
  destruct ty as [|ds obs E sp b]; simpl.
  { split; [by left|]. intros [?|[_ ?]]; done. }
  destruct (decide (base = b)) as [->|Hne].
  - rewrite lookup_insert. split.
    + intros (ns & [= <-] & Hn). apply elem_of_app in Hn as [Hn|Hn].
      * left. destruct (b2n !! b) as [ns|]; simpl in Hn; [eauto|by apply elem_of_nil in Hn].
      * right. apply elem_of_list_singleton in Hn. done.
    + intros [(ns & Hns & Hn)|[-> _]]; eexists; (split; [done|]); apply elem_of_app; [left|right].
      * by rewrite Hns.
      * by left.
  - rewrite lookup_insert_ne by done. split; [by left|]. intros [?|[_ [= ?]]]; done.
Qed.
Lemma listed_exact_listed h : hirm_listed_exactly h -> hirm_listed h.
Proof. intros H base ns name Hns Hn. destruct (proj1 (H base name)) as (t & Ht & _); eauto. Qed.

Lemma map_sub_size (m m' : gmap string (t_rel V)) : m ⊆ m' -> size m <= size m'.
Proof. intros H. rewrite <- !size_dom. apply subseteq_size. by apply subseteq_dom. Qed.

(** ** The constructor *)
Definition built (schema : gmap string (t_rel V)) h : Prop :=
  (exists a, hirm_holds h a) /\ h_schema h ⊆ schema /\ hirm_listed_exactly h /\
  forall name m, hirm_data h !! name = Some m -> m = ∅.
Definition nonempty_domains (schema : gmap string (t_rel V)) : Prop :=
  forall name t, schema !! name = Some t -> t_domains t <> [].

Lemma built_empty schema : built schema hirm_empty.
Proof.
  split_and!.
  - exists ∅. apply hirm_holds_empty.
  - apply map_empty_subseteq.
  - intros base name. split.
    + intros (ns & H & _). by cbn [hirm_empty h_b2n] in H; rewrite lookup_empty in H.
    + intros (t & H & _). by cbn [hirm_empty h_schema] in H; rewrite lookup_empty in H.
  - intros name m. unfold hirm_data. rewrite map_lookup_imap. simpl. by rewrite lookup_empty.
Qed.

Lemma built_add schema h name ty r : schema_lawful schema -> built schema h -> schema !! name = Some ty ->
  (forall h' r', hirm_add_relation h name ty r = Ok (h', r') -> built schema h' /\ h_schema h' = <[name := ty]> (h_schema h) /\
     h_schema h !! name = None) /\
  (h_schema h !! name = None -> t_domains ty <> [] -> (forall b, t_base ty = Some b -> is_Some (h_schema h !! b)) ->
     exists st, hirm_add_relation h name ty r = Ok st).
Proof.
  intros HL ([a Hh] & Hsub & Hlist & Hdata) Hty. destruct (HL name ty Hty) as [HLt Hb].
  destruct (hirm_add_spec h a name ty r Hh HLt) as [H1 H2].
  { intros b tb Htb Hs. eapply Hb; [done|]. by eapply lookup_weaken. }
  split.
  - intros h' r' H. destruct (H1 h' r' H) as ((Hn & _) & table & Hh' & Hs & _ & Hb2n & _ & Hd). split; [|done]. unfold built. split_and!.
    + eauto.
    + rewrite Hs. by apply insert_subseteq_l.
    + intros base n. rewrite Hb2n, push_listed, (Hlist base n), Hs. split.
      * intros [(t & Ht & Htb)|[-> Htb]]; [|exists ty; by rewrite lookup_insert].
        exists t. rewrite lookup_insert_ne; [done|]. intros ->. congruence.
      * intros (t & Ht & Htb). apply lookup_insert_Some in Ht as [[<- <-]|[? ?]]; eauto.
    + intros n m. rewrite Hd. intros Hm. apply lookup_insert_Some in Hm as [[_ <-]|[_ Hm]]; [done|eauto].
  - intros Hn Hne Hbase. apply H2. done.
Qed.

(** One pass over some of the declarations. *)
Lemma ctor_pass schema l : schema_lawful schema -> (forall n, n ∈ l -> is_Some (schema !! n)) ->
  forall h r added pending, built schema h ->
  (forall h' r' added' pending', foldM (ctor_visit schema) (h, r, added, pending) l = Ok (h', r', added', pending') ->
     built schema h' /\ h_schema h ⊆ h_schema h' /\
     (added' = true -> added = true \/ size (h_schema h) < size (h_schema h')) /\
     (added' = false -> added = false /\ h' = h /\ forall n, n ∈ l -> is_Some (h_schema h !! n) \/
         exists t b, schema !! n = Some t /\ t_base t = Some b /\ h_schema h !! b = None) /\
     (pending' = false -> pending = false /\ forall n, n ∈ l -> is_Some (h_schema h' !! n)) /\
     (pending' = true -> pending = true \/ exists n, n ∈ l /\ h_schema h !! n = None)) /\
  (nonempty_domains schema -> exists st, foldM (ctor_visit schema) (h, r, added, pending) l = Ok st).
Proof.
  intros HL. induction l as [|name l IH]; intros Hl h r added pending Hb; cbn [foldM].
  { split; [|eauto]. intros h' r' added' pending' H. injection H as <- <- <- <-. split_and!; try done; try tauto.
    - intros ->. split_and!; try done. intros n Hn. by apply elem_of_nil in Hn.
    - intros ->. split; [done|]. intros n Hn. by apply elem_of_nil in Hn. }
  destruct (Hl name) as [ty Hty]; [left|].
  assert (forall n, n ∈ l -> is_Some (schema !! n)) as Hl' by (intros n Hn; apply Hl; by right).
  cbn [ctor_visit]. case_bool_decide as Hin.
  - apply elem_of_dom in Hin. cbn [obind]. destruct (IH Hl' h r added pending Hb) as [IH1 IH2]. split; [|done].
    intros h' r' added' pending' H. destruct (IH1 _ _ _ _ H) as (H1 & H2 & H3 & H4 & H5 & H6). split_and!; try done.
    + intros Ha. destruct (H4 Ha) as (? & ? & Hn). split_and!; try done. intros n [->|Hn']%elem_of_cons; auto.
    + intros Hp. destruct (H5 Hp) as (? & Hn). split; [done|]. intros n [->|Hn']%elem_of_cons; [|auto].
      destruct Hin as [t Ht]. exists t. by eapply lookup_weaken.
    + intros Hp. destruct (H6 Hp) as [?|(n & Hn & ?)]; [by left|right; exists n; split; [by right|done]].
  - assert (h_schema h !! name = None) as Hnone by by apply not_elem_of_dom.
    rewrite Hty. cbn [at_ obind].
    set (ready := match ty with TClean _ _ _ _ => true | TNoisy _ _ _ _ base => bool_decide (base ∈ dom (h_schema h)) end).
    assert (ready = true <-> forall b, t_base ty = Some b -> is_Some (h_schema h !! b)) as Hready.
    { unfold ready. destruct ty as [|ds obs E sp base]; simpl; [split; [by intros|done]|]. rewrite bool_decide_eq_true, elem_of_dom.
      split; [by intros ? b [= <-]|auto]. }
    destruct ready eqn:Er; cbv iota.
    + destruct (built_add schema h name ty r HL Hb Hty) as [Ha1 Ha2]. split.
      * intros h' r' added' pending' H. apply obind_Ok in H as (st & Hv & H). apply obind_Ok in Hv as ([h1 r1] & Hadd & [= <-]).
        destruct (Ha1 h1 r1 Hadd) as (Hb1 & Hs1 & _). destruct (IH Hl' h1 r1 true pending Hb1) as [IH1 _].
        destruct (IH1 _ _ _ _ H) as (H1 & H2 & H3 & H4 & H5 & H6).
        assert (h_schema h ⊆ h_schema h1) as Hsub by (rewrite Hs1; by apply insert_subseteq).
        assert (size (h_schema h) < size (h_schema h1)) as Hsz by (rewrite Hs1, map_size_insert_None by done; lia).
        split_and!; try done.
        -- by etrans.
        -- intros _. right. pose proof (map_sub_size (h_schema h1) (h_schema h') H2). lia.
        -- intros Ha. by destruct (H4 Ha) as [? _].
        -- intros Hp. destruct (H5 Hp) as (? & Hn). split; [done|]. intros n [->|Hn']%elem_of_cons; [|auto].
           exists ty. eapply lookup_weaken; [|done]. rewrite Hs1. apply lookup_insert.
        -- intros Hp. destruct (H6 Hp) as [?|(n & Hn & Hn1)]; [by left|right]. exists n. split; [by right|].
           by eapply lookup_weaken_None.
      * intros Hne. destruct (Ha2 Hnone) as [[h1 r1] Hadd]; [by eapply Hne|by apply Hready|]. rewrite Hadd. cbn [obind].
        destruct (Ha1 h1 r1 Hadd) as (Hb1 & Hs1 & _). destruct (IH Hl' h1 r1 true pending Hb1) as [_ IH2]. by apply IH2.
    + cbn [obind]. destruct (IH Hl' h r added true Hb) as [IH1 IH2]. split; [|done].
      intros h' r' added' pending' H. destruct (IH1 _ _ _ _ H) as (H1 & H2 & H3 & H4 & H5 & H6). split_and!; try done.
      * intros Ha. destruct (H4 Ha) as (? & ? & Hn). split_and!; try done. intros n [->|Hn']%elem_of_cons; [|auto]. right.
        unfold ready in Er. destruct ty as [|ds obs E sp base]; [done|]. apply bool_decide_eq_false in Er. apply not_elem_of_dom in Er. eauto.
      * intros Hp. by destruct (H5 Hp) as [? _].
      * intros _. right. exists name. split; [left|done].
Qed.

Lemma sorted_names_elem (schema : gmap string (t_rel V)) n : n ∈ sorted_names schema <-> is_Some (schema !! n).
Proof. unfold sorted_names. rewrite merge_sort_Permutation, elem_of_elements. apply elem_of_dom. Qed.

Lemma ctor_loop_spec schema : schema_lawful schema ->
  forall fuel h r, built schema h -> size schema < fuel + size (h_schema h) ->
  (forall h' r', ctor_loop fuel schema h r = Ok (h', r') -> built schema h' /\ h_schema h' = schema) /\
  (nonempty_domains schema -> (all_grounded schema -> exists st, ctor_loop fuel schema h r = Ok st) /\
                              (~ all_grounded schema -> ctor_loop fuel schema h r = Exits)).
Proof.
  intros HL. induction fuel as [|fuel IH]; intros h r Hb Hsz.
  { exfalso. destruct Hb as (_ & Hsub & _). pose proof (map_sub_size _ _ Hsub). lia. }
  cbn [ctor_loop].
  destruct (ctor_pass schema (sorted_names schema) HL) with (h := h) (r := r) (added := false) (pending := false) as [Hp1 Hp2];
    [by intros n; rewrite sorted_names_elem|done|].
  assert (forall h', built schema h' -> (forall n, n ∈ sorted_names schema -> is_Some (h_schema h' !! n)) -> h_schema h' = schema) as Hfull.
  { intros h' (_ & Hsub & _) Hall. apply map_eq. intros n. destruct (schema !! n) as [ty|] eqn:E.
    - destruct (Hall n) as [ty' Hty']; [apply sorted_names_elem; eauto|]. rewrite Hty'. symmetry. rewrite <- E. by eapply lookup_weaken.
    - by eapply lookup_weaken_None. }
  split.
  - intros h' r' H. apply obind_Ok in H as ([[[h1 r1] added] pending] & Hp & H).
    destruct (Hp1 _ _ _ _ Hp) as (Hb1 & Hsub1 & Ha1 & Ha2 & Hpe1 & Hpe2).
    destruct pending; simpl in H; [|destruct (Hpe1 eq_refl) as [_ Hall]; injection H as <- <-; split; [done|by apply Hfull]].
    destruct added; simpl in H; [|done]. destruct (Ha1 eq_refl) as [?|Hlt]; [done|].
    apply (proj1 (IH h1 r1 Hb1 ltac:(lia)) _ _ H).
  - intros Hne. destruct (Hp2 Hne) as [[[[h1 r1] added] pending] Hp]. rewrite Hp. cbn [obind].
    destruct (Hp1 _ _ _ _ Hp) as (Hb1 & Hsub1 & Ha1 & Ha2 & Hpe1 & Hpe2).
    destruct pending; simpl.
    + destruct added; simpl.
      * destruct (Ha1 eq_refl) as [?|Hlt]; [done|]. apply (proj2 (IH h1 r1 Hb1 ltac:(lia)) Hne).
      * destruct (Ha2 eq_refl) as (_ & -> & Hall). destruct (Hpe2 eq_refl) as [?|(n & Hn & Hnone)]; [done|].
        split; [|done]. intros Hg. exfalso. apply sorted_names_elem in Hn.
        assert (forall m, grounded schema m -> is_Some (h_schema h !! m)) as Hm.
        { intros m Hgm. induction Hgm as [m t Ht Htb|m t b Ht Htb Hgb IHg].
          - destruct (Hall m) as [?|(t' & b' & Ht' & Hb' & _)]; [apply sorted_names_elem; eauto|done|congruence].
          - destruct (Hall m) as [?|(t' & b' & Ht' & Hb' & Hnb)]; [apply sorted_names_elem; eauto|done|].
            assert (t' = t) as -> by congruence. assert (b' = b) as -> by congruence. destruct IHg; congruence. }
        destruct (Hm n (Hg n Hn)). congruence.
    + destruct (Hpe1 eq_refl) as [_ Hall]. split; [eauto|]. intros Hng. exfalso. apply Hng.
      pose proof (Hfull h1 Hb1 Hall) as Hs. destruct Hb1 as ([a Hh] & _). rewrite <- Hs. apply Hh.
Qed.

Lemma hirm_new_spec schema r : schema_lawful schema ->
  (forall h r', hirm_new schema r = Ok (h, r') -> built schema h /\ h_schema h = schema) /\
  (nonempty_domains schema -> (all_grounded schema -> exists st, hirm_new schema r = Ok st) /\
                              (~ all_grounded schema -> hirm_new schema r = Exits)).
Proof.
  intros HL. apply (ctor_loop_spec schema HL (S (size schema)) hirm_empty r (built_empty schema)). lia.
Qed.

(** ** Histories *)
(** [h'] has the relations of [h], possibly in other clusters. *)
Definition shuffled h h' : Prop := same_directory h h' /\ hirm_data h' = hirm_data h /\ exists a', hirm_holds h' a'.
Lemma moved_shuffled h a h' name choice : moved h a h' name choice -> shuffled h h'.
Proof. intros (rc & _ & Hh & Hd & Hs & Hc & Hr & Hb & _). split; [done|]. split; [done|eauto]. Qed.
Lemma shuffled_trans h1 h2 h3 : shuffled h1 h2 -> shuffled h2 h3 -> shuffled h1 h3.
Proof.
  intros ((a1 & a2 & a3 & a4) & H1 & _) ((b1 & b2 & b3 & b4) & H2 & H3). split; [|split; [congruence|done]].
  split; [congruence|]. split; [congruence|]. split; congruence.
Qed.
Lemma shuffled_closed h h' : shuffled h h' -> hirm_closed h -> hirm_closed h'.
Proof. intros ((Hs & _) & Hd & _) Hc. unfold hirm_closed. by rewrite Hs, Hd. Qed.
Lemma shuffled_listed h h' : shuffled h h' -> hirm_listed h -> hirm_listed h'.
Proof. intros ((Hs & _ & _ & Hb) & Hd & _) Hc. unfold hirm_listed. by rewrite Hs, Hb. Qed.

Lemma hirm_transition_spec o names : orders_ok o -> forall h a r, hirm_holds h a ->
  (forall h' r', hirm_transition o h names r = Ok (h', r') -> shuffled h h') /\
  ((forall n, n ∈ names -> is_Some (h_schema h !! n)) -> hirm_closed h -> hirm_listed h -> exists st, hirm_transition o h names r = Ok st).
Proof.
  intros Ho. unfold hirm_transition. induction names as [|name names IH]; intros h a r Hh; cbn [foldM].
  { split; [|eauto]. intros h' r' H. injection H as <- <-. split; [done|]. split; [done|eauto]. }
  destruct (transition_relation_spec h a o name r Hh Ho) as [H1 H2]. split.
  - intros h' r' H. apply obind_Ok in H as ([h1 r1] & Hs & H). destruct (H1 _ _ Hs) as [choice Hm]. apply moved_shuffled in Hm.
    destruct (Hm) as (_ & _ & a' & Hh'). eapply shuffled_trans; [done|]. by apply (proj1 (IH h1 a' r1 Hh') h' r').
  - intros Hn Hc Hl. destruct H2 as [[h1 r1] Hs]; [apply Hn; left|done..|]. rewrite Hs. cbn [obind].
    destruct (H1 _ _ Hs) as [choice Hm]. apply moved_shuffled in Hm. destruct (Hm) as ((Hsch & _) & _ & a' & Hh').
    apply (proj2 (IH h1 a' r1 Hh')); [|by eapply shuffled_closed|by eapply shuffled_listed].
    intros n Hn'. rewrite Hsch. apply Hn. by right.
Qed.

Lemma hirm_do_spec h a c h' : hirm_holds h a -> hirm_call_ok h c -> hirm_do h c = Ok h' ->
  (exists a', hirm_holds h' a') /\ h_schema h' = hirm_schema_after (h_schema h) c /\ hirm_data h' = hirm_data_after (hirm_data h) c.
Proof.
  intros Hh Hok H. destruct c as [name ty r|o name|name items v r|o name items|o name table r|o names r|o r|lg o tb r]; simpl in *.
  - apply obind_Ok in H as ([h1 r1] & H & [= <-]). destruct Hok as [HL Hb].
    destruct (proj1 (hirm_add_spec h a name ty r Hh HL Hb) _ _ H) as (_ & table & Hh' & Hs & _ & _ & _ & Hd). eauto.
  - destruct Hok as [Ho Hno]. destruct (proj1 (hirm_remove_spec h a o name Hh Ho Hno) _ H) as (rc & _ & Hh' & Hs & _ & _ & _ & Hd). eauto.
  - apply obind_Ok in H as ([h1 r1] & H & [= <-]).
    destruct (proj1 (hirm_incorporate_spec h a name items v r Hh) _ _ H) as (Hh' & (Hs & _) & _ & _ & Hd). eauto.
  - destruct (proj1 (hirm_unincorporate_spec h a o name items Hh Hok) _ H) as (Hh' & (Hs & _) & _ & _ & Hd). eauto.
  - apply obind_Ok in H as ([h1 r1] & H & [= <-]).
    destruct (moved_shuffled _ _ _ _ _ (proj1 (set_cluster_spec h a o name table r Hh Hok) _ _ H)) as ((Hs & _) & Hd & Hh'). eauto.
  - apply obind_Ok in H as ([h1 r1] & H & [= <-]).
    destruct (proj1 (hirm_transition_spec o names Hok h a r Hh) _ _ H) as ((Hs & _) & Hd & Hh'). eauto.
  - apply obind_Ok in H as ([h1 r1] & H & [= <-]).
    destruct (proj1 (hirm_transition_spec o _ Hok h a r Hh) _ _ H) as ((Hs & _) & Hd & Hh'). eauto.
  - apply obind_Ok in H as ([h1 r1] & H & [= <-]).
    destruct (hirm_irm_step_spec lg o h a tb r h1 r1 Hh Hok H) as (Hh' & (Hs & _) & _ & Hd). eauto.
Qed.

Lemma hirm_run_spec h cs h' : hirm_run h cs h' -> forall a, hirm_holds h a ->
  (exists a', hirm_holds h' a') /\ h_schema h' = foldl hirm_schema_after (h_schema h) cs /\
  hirm_data h' = foldl hirm_data_after (hirm_data h) cs.
Proof.
  intros H. induction H as [h|h c h1 cs h' Hok Hdo Hrun IH]; intros a Hh; simpl; [eauto|].
  destruct (hirm_do_spec h a c h1 Hh Hok Hdo) as ([a1 Hh1] & Hs & Hd). rewrite <- Hs, <- Hd. by eapply IH.
Qed.

(** Listing survives everything but the removal of a noisy relation. *)
Lemma hirm_do_listed h a c h' : hirm_holds h a -> hirm_call_ok h c -> hirm_do h c = Ok h' -> hirm_listed_exactly h ->
  (forall o name t, c = HRemove o name -> h_schema h !! name = Some t -> t_base t = None) -> hirm_listed_exactly h'.
Proof.
  intros Hh Hok H Hl Hc.
  assert (forall h', same_directory h h' -> hirm_listed_exactly h') as Hsame.
  { intros h2 (Hs & _ & _ & Hb) base n. rewrite Hs, Hb. apply Hl. }
  destruct c as [name ty r|o name|name items v r|o name items|o name table r|o names r|o r|lg o tb r]; simpl in *.
  - apply obind_Ok in H as ([h1 r1] & H & [= <-]). destruct Hok as [HL Hb].
    destruct (proj1 (hirm_add_spec h a name ty r Hh HL Hb) _ _ H) as ((Hn & _) & table & Hh' & Hs & _ & Hb2n & _).
    intros base n. rewrite Hb2n, push_listed, (Hl base n), Hs. split.
    + intros [(t & Ht & Htb)|[-> Htb]]; [|exists ty; by rewrite lookup_insert].
      exists t. rewrite lookup_insert_ne; [done|]. intros ->. congruence.
    + intros (t & Ht & Htb). apply lookup_insert_Some in Ht as [[<- <-]|[? ?]]; eauto.
  - destruct Hok as [Ho Hno]. destruct (proj1 (hirm_remove_spec h a o name Hh Ho Hno) _ H) as (rc & Hrc & Hh' & Hs & _ & Hb & _).
    intros base n. rewrite Hb, (Hl base n), Hs. split.
    + intros (t & Ht & Htb). exists t. split; [|done]. rewrite lookup_delete_ne; [done|]. intros <-.
      specialize (Hc o name t eq_refl Ht). congruence.
    + intros (t & Ht & Htb). apply lookup_delete_Some in Ht as [_ Ht]. eauto.
  - apply obind_Ok in H as ([h1 r1] & H & [= <-]).
    apply Hsame. by destruct (proj1 (hirm_incorporate_spec h a name items v r Hh) _ _ H) as (Hh' & Hs & _).
  - apply Hsame. by destruct (proj1 (hirm_unincorporate_spec h a o name items Hh Hok) _ H) as (Hh' & Hs & _).
  - apply obind_Ok in H as ([h1 r1] & H & [= <-]).
    apply Hsame. by destruct (moved_shuffled _ _ _ _ _ (proj1 (set_cluster_spec h a o name table r Hh Hok) _ _ H)) as (Hs & _).
  - apply obind_Ok in H as ([h1 r1] & H & [= <-]).
    apply Hsame. by destruct (proj1 (hirm_transition_spec o names Hok h a r Hh) _ _ H) as (Hs & _).
  - apply obind_Ok in H as ([h1 r1] & H & [= <-]).
    apply Hsame. by destruct (proj1 (hirm_transition_spec o _ Hok h a r Hh) _ _ H) as (Hs & _).
  - apply obind_Ok in H as ([h1 r1] & H & [= <-]).
    apply Hsame. by destruct (hirm_irm_step_spec lg o h a tb r h1 r1 Hh Hok H) as (Hh' & Hs & _).
Qed.

Lemma t_accepts_mono (schema schema' : gmap string (t_rel V)) data data' ty items v :
  (forall b tb m bv, t_base ty = Some b -> schema !! b = Some tb -> data !! b = Some m ->
     m !! take (length (t_domains tb)) items = Some bv ->
     schema' !! b = Some tb /\ exists m', data' !! b = Some m' /\ m' !! take (length (t_domains tb)) items = Some bv) ->
  t_accepts schema data ty items v -> t_accepts schema' data' ty items v.
Proof.
  intros H. destruct ty as [|ds obs E sp base]; simpl in *; [done|]. intros (tb & m & bv & Htb & Hm & Hbv & Hacc).
  destruct (H base tb m bv eq_refl Htb Hm Hbv) as (Htb' & m' & Hm' & Hbv'). exists tb, m', bv. done.
Qed.

Lemma hirm_do_closed h a c h' : hirm_holds h a -> hirm_call_ok h c -> hirm_call_gentle h c -> hirm_do h c = Ok h' ->
  hirm_closed h -> hirm_closed h'.
Proof.
  intros Hh Hok Hg H Hc. pose proof (hirm_do_spec h a c h' Hh Hok H) as (_ & Hs & Hd).
  assert (h_schema h' = h_schema h -> hirm_data h' = hirm_data h -> hirm_closed h') as Hsame.
  { intros Hs' Hd'. unfold hirm_closed. by rewrite Hs', Hd'. }
  destruct c as [name ty r|o name|name items v r|o name items|o name table r|o names r|o r|lg o tb r]; simpl in *;
    [| | | |by apply Hsame..].
  - apply obind_Ok in H as ([h1 r1] & H & [= <-]). destruct Hok as [HL Hb].
    destruct (proj1 (hirm_add_spec h a name ty r Hh HL Hb) _ _ H) as ((Hn & _) & _).
    intros n t m k v. rewrite Hs, Hd. intros Ht Hm Hk. destruct (decide (n = name)) as [->|Hne].
    { rewrite lookup_insert in Hm. injection Hm as <-. by rewrite lookup_empty in Hk. }
    rewrite lookup_insert_ne in Ht by done. rewrite lookup_insert_ne in Hm by done. eapply t_accepts_mono; [|by eapply Hc].
    intros b tb mb bv Htb Hsb Hdb Hbv. assert (b <> name) by (intros ->; congruence). rewrite !lookup_insert_ne by done. eauto.
  - destruct Hok as [Ho Hno]. intros n t m k v. rewrite Hs, Hd. intros Ht Hm Hk.
    apply lookup_delete_Some in Ht as [Hne Ht], Hm as [_ Hm]. eapply t_accepts_mono; [|by eapply Hc].
    intros b tb mb bv Htb Hsb Hdb Hbv. assert (b <> name) by (intros ->; exact (Hno n t Ht Htb)). rewrite !lookup_delete_ne by done. eauto.
  - apply obind_Ok in H as ([h1 r1] & H & [= <-]).
    destruct (proj1 (hirm_incorporate_spec h a name items v r Hh) _ _ H) as (_ & _ & _ & (ty & m0 & Hty & Hm0 & Hnew & Hlen & Hacc) & _).
    assert (forall t k v', t_accepts (h_schema h) (hirm_data h) t k v' -> t_accepts (h_schema h1) (hirm_data h1) t k v') as Hmono.
    { intros t k v'. apply t_accepts_mono. intros b tb mb bv Htb Hsb Hdb Hbv. rewrite Hs, Hd. split; [done|].
      destruct (decide (b = name)) as [->|Hne].
      - rewrite lookup_alter, Hdb. eexists. split; [done|]. rewrite lookup_insert_ne; [done|]. intros Heq. rewrite Hm0 in Hdb. injection Hdb as <-.
        rewrite Heq in Hnew. congruence.
      - rewrite lookup_alter_ne by done. eauto. }
    intros n t m k v' Ht Hm Hk. rewrite Hs in Ht. rewrite Hd in Hm. apply Hmono.
    destruct (decide (n = name)) as [->|Hne].
    + rewrite lookup_alter, Hm0 in Hm. injection Hm as <-. destruct (decide (k = items)) as [->|Hki].
      * rewrite lookup_insert in Hk. injection Hk as <-. assert (t = ty) as -> by congruence. done.
      * rewrite lookup_insert_ne in Hk by done. by eapply Hc.
    + rewrite lookup_alter_ne in Hm by done. by eapply Hc.
  - intros n t m k v Ht Hm Hk. rewrite Hs in Ht. rewrite Hd in Hm. rewrite Hs, Hd.
    assert (exists m0, hirm_data h !! n = Some m0 /\ m0 !! k = Some v) as (m0 & Hm0 & Hk0).
    { destruct (decide (n = name)) as [->|Hne]; [|rewrite lookup_alter_ne in Hm by done; eauto].
      rewrite lookup_alter in Hm. destruct (hirm_data h !! name) as [m0|]; [|done]. injection Hm as <-.
      apply lookup_delete_Some in Hk as [_ Hk]. eauto. }
    eapply t_accepts_mono; [|by eapply Hc]. intros b tb mb bv Htb Hsb Hdb Hbv. split; [done|].
    destruct (decide (b = name)) as [->|Hne]; [|rewrite lookup_alter_ne by done; eauto].
    rewrite lookup_alter, Hdb. eexists. split; [done|]. rewrite lookup_delete_ne; [done|]. intros Heq.
    by apply (Hg n t tb m0 k v).
Qed.

Lemma gentle_run_spec h cs h' : hirm_gentle_run h cs h' -> forall a, hirm_holds h a -> hirm_closed h -> hirm_listed_exactly h ->
  hirm_closed h' /\ hirm_listed_exactly h' /\ hirm_run h cs h'.
Proof.
  intros H. induction H as [h|h c h1 cs h' Hok Hg Hdo Hrun IH]; intros a Hh Hc Hl; [split_and!; try done; constructor|].
  destruct (hirm_do_spec h a c h1 Hh Hok Hdo) as ([a1 Hh1] & Hs & Hd).
  destruct (IH a1 Hh1) as (? & ? & ?).
  - exact (hirm_do_closed h a c h1 Hh Hok Hg Hdo Hc).
  - apply (hirm_do_listed h a c h1 Hh Hok Hdo Hl). intros o name t -> Ht. by apply Hg.
  - split_and!; [done|done|]. by econstructor.
Qed.
Lemma built_closed schema h : built schema h -> hirm_closed h.
Proof. intros (_ & _ & _ & Hd) name t m items v _ Hm Hv. rewrite (Hd _ _ Hm) in Hv. by rewrite lookup_empty in Hv. Qed.
End Ctor.
