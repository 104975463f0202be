From Coq Require Import String Ascii.
From stdpp Require Import gmap strings list sorting relations.
From Coq Require Import ZArith Reals Lia.
From Verif Require Import M_base M_crp M_relation M_noisy M_irm M_hirm M_pclean_io M_gendb M_gendb_rels M_gendb_state M_pclean
  S_crp S_crp_state S_irm S_gendb S_gendb_rels S_gendb_state P_base P_crp P_irm_schema P_gendb P_gendb_links P_gendb_ents.
Local Open Scope nat_scope.

(** * Walking the links of an item vector *)
Section Walk.
Context (rid : hash_fn) (cs : gmap string pclass) (ds : list string) (r : links).
Definition links_sound : Prop := forall i f j, link r i f = Some j -> j < i /\ exists k k', ds !! i = Some k /\ ds !! j = Some k' /\ refers cs k f k'.
Definition links_unique : Prop := forall i i' f f' j, link r i f = Some j -> link r i' f' = Some j -> i = i' /\ f = f'.
Definition child (p q : nat) : Prop := exists f, link r p f = Some q.
Notation reach := (rtc child).
Context (Hs : links_sound).

Lemma reach_le p q : reach p q -> q <= p.
Proof. induction 1 as [p|p q t [f Hf] _ IH]; [done|]. destruct (Hs _ _ _ Hf). lia. Qed.
Lemma reach_compare (Hu : links_unique) p p' q : reach p q -> reach p' q -> reach p p' \/ reach p' p.
Proof.
  intros H. revert q H p'. apply (rtc_ind_r (fun q => forall p', reach p' q -> reach p p' \/ reach p' p) p); [by right|].
  intros q q' H [f Hf] IH p' H'.
  apply rtc_inv_r in H' as [->|(q2 & H' & [f' Hf'])].
  - left. eapply rtc_r; [done|by exists f].
  - destruct (Hu _ _ _ _ _ Hf Hf') as [-> _]. by apply IH.
Qed.
Lemma children_apart (Hu : links_unique) p f f' j j' q : link r p f = Some j -> link r p f' = Some j' -> f <> f' ->
  reach j q -> reach j' q -> False.
Proof.
  assert (forall f f' j j', link r p f = Some j -> link r p f' = Some j' -> f <> f' -> reach j j' -> False) as Hone.
  { clear f f' j j'. intros f f' j j' H1 H2 Hne H. apply rtc_inv_r in H as [->|(t & H & [g Hg])].
    - destruct (Hu _ _ _ _ _ H1 H2). done.
    - destruct (Hu _ _ _ _ _ Hg H2) as [-> _]. apply reach_le in H. destruct (Hs _ _ _ H1). lia. }
  intros H1 H2 Hne H3 H4. destruct (reach_compare Hu _ _ _ H3 H4); [by eapply (Hone f f')|eapply (Hone f' f); try done; congruence].
Qed.

(** The items at and below position [p] follow the recorded references. *)
Definition follows (e : ents) (l : items_t) (p : nat) : Prop := forall f j, link r p f = Some j ->
  exists c x y, ds !! p = Some c /\ l !! p = Some x /\ l !! j = Some y /\ recorded e c f x y.
Lemma follows_grow e e' l p : ents_grow e e' -> follows e l p -> follows e' l p.
Proof. intros G H f j Hl. destruct (H f j Hl) as (c & x & y & ? & ? & ? & ?). exists c, x, y. auto. Qed.
Lemma follows_same e l l' p : l' !! p = l !! p -> (forall q, child p q -> l' !! q = l !! q) -> follows e l p -> follows e l' p.
Proof.
  intros H1 H2 H f j Hl. destruct (H f j Hl) as (c & x & y & ? & ? & ? & ?). exists c, x, y.
  rewrite H1, H2 by by exists f. done.
Qed.

Lemma put_item_Ok items ind x items' : put_item items ind x = Ok items' -> ind < length items /\ items' = <[ind := x]> items.
Proof. unfold put_item. case_bool_decide; [by intros [= <-]|done]. Qed.

Lemma unique_entities_step fuel : forall e items ind i e' items', unique_entities fuel rid ds r (e, items) ind i = Ok (e', items') ->
  step_ok rid cs e e' /\ length items' = length items.
Proof.
  induction fuel as [|fuel IH]; intros e items ind i e' items' H; cbn [unique_entities] in H; [done|].
  apply obind_Ok in H as (it1 & [Hlt ->]%put_item_Ok & H). destruct (r !! ind) as [m|] eqn:Em.
  2:{ injection H as <- <-. split; [apply step_ok_refl|by rewrite insert_length]. }
  rewrite <- (insert_length items ind i). revert H. generalize (<[ind := i]> items). generalize (sorted_names m). intros fs. revert e.
  induction fs as [|f fs IHf]; intros e it H; cbn [foldM] in H; [injection H as <- <-; split; [apply step_ok_refl|done]|].
  apply obind_Ok in H as ([e1 it1] & Hst & H). apply IHf in H as [S2 L2].
  cbn [unique_step] in Hst. apply obind_Ok in Hst as (j & Hj%at_Ok & Hst). apply obind_Ok in Hst as (c & Hc%idx_Ok & Hst).
  apply obind_Ok in Hst as ([x e2] & Hr & Hst). apply IH in Hst as [S1 L1].
  assert (link r ind f = Some j) as Hl by (unfold link; by rewrite Em).
  destruct (Hs _ _ _ Hl) as (_ & k & k' & Hk & Hk' & Href). assert (k = c) as -> by congruence. rewrite Hk' in Hr. cbn [at_] in Hr.
  destruct (unique_reference_ok _ _ _ _ _ _ _ _ _ Href Hr) as [S0 _].
  split; [|congruence]. eapply step_ok_trans; [exact S0|]. by eapply step_ok_trans.
Qed.

Lemma unique_entities_fill (Hu : links_unique) fuel : forall e items ind i e' items', unique_entities fuel rid ds r (e, items) ind i = Ok (e', items') ->
  (forall q, ~ reach ind q -> items' !! q = items !! q) /\ items' !! ind = Some i /\ forall p, reach ind p -> follows e' items' p.
Proof.
  induction fuel as [|fuel IH]; intros e items ind i e' items' H; cbn [unique_entities] in H; [done|].
  apply obind_Ok in H as (it1 & [Hlt ->]%put_item_Ok & H). destruct (r !! ind) as [m|] eqn:Em.
  2:{ injection H as <- <-.
      assert (forall f j, link r ind f = Some j -> False) as Hno by (intros f j Hl; unfold link in Hl; by rewrite Em in Hl).
      split_and!; [|by rewrite list_lookup_insert|].
      - intros q Hq. apply list_lookup_insert_ne. intros ->. by apply Hq.
      - intros p Hp. apply rtc_inv in Hp as [<-|(q & [f Hf] & _)]; [|by apply Hno in Hf]. intros f j Hl. by apply Hno in Hl. }
  assert (forall fs dn e it e' it', NoDup (dn ++ fs) ->
    it !! ind = Some i ->
    (forall f j, f ∈ dn -> link r ind f = Some j -> (exists c y, ds !! ind = Some c /\ it !! j = Some y /\ recorded e c f i y) /\ forall p, reach j p -> follows e it p) ->
    foldM (unique_step (unique_entities fuel rid ds r) rid ds ind i m) (e, it) fs = Ok (e', it') ->
    (forall q, ~ reach ind q -> it' !! q = it !! q) /\ it' !! ind = Some i /\
    (forall f j, f ∈ dn ++ fs -> link r ind f = Some j -> (exists c y, ds !! ind = Some c /\ it' !! j = Some y /\ recorded e' c f i y) /\ forall p, reach j p -> follows e' it' p)) as Hloop.
  { clear H e e' items items' Hlt. induction fs as [|f fs IHf]; intros dn e it e' it' Hnd H1 H2 H; cbn [foldM] in H.
    - injection H as <- <-. rewrite app_nil_r. done.
    - apply obind_Ok in H as ([e1 it1] & Hst & H).
      cbn [unique_step] in Hst. apply obind_Ok in Hst as (j & Hj%at_Ok & Hst). apply obind_Ok in Hst as (c & Hc%idx_Ok & Hst).
      apply obind_Ok in Hst as ([x e2] & Hr & Hst).
      assert (link r ind f = Some j) as Hl by (unfold link; by rewrite Em).
      destruct (Hs _ _ _ Hl) as (Hji & k & k' & Hk & Hk' & Href). assert (k = c) as -> by congruence. rewrite Hk' in Hr. cbn [at_] in Hr.
      destruct (unique_reference_ok _ _ _ _ _ _ _ _ _ Href Hr) as [[_ G0] R0].
      destruct (unique_entities_step _ _ _ _ _ _ _ Hst) as [[_ G1] _]. destruct (IH _ _ _ _ _ _ Hst) as (U1 & U2 & U3).
      assert (~ reach j ind) as Hni by (intros Hr'%reach_le; lia).
      replace (dn ++ f :: fs) with ((dn ++ [f]) ++ fs) in * by (by rewrite <- app_assoc).
      apply (IHf (dn ++ [f])) in H as (V1 & V2 & V3).
      + split_and!; [|done|done]. intros q Hq. rewrite V1 by done. apply U1. intros Hjq. apply Hq. eapply rtc_l; [by exists f|done].
      + done.
      + by rewrite U1.
      + intros f' j' [Hf'| ->%elem_of_list_singleton]%elem_of_app Hl'.
        * destruct (H2 f' j' Hf' Hl') as [(c' & y & Hc' & Hy & Hrec) Hfol].
          assert (f <> f') as Hne.
          { intros <-. rewrite <- app_assoc in Hnd. apply NoDup_app in Hnd as (_ & Hnd & _). apply (Hnd f Hf'). left. }
          assert (forall q, reach j' q -> it1 !! q = it !! q) as Hsame.
          { intros q Hq. apply U1. intros Hq'. by eapply (children_apart Hu ind f f' j j' q). }
          split.
          -- exists c', y. split_and!; [done|by rewrite Hsame|by apply G1, G0].
          -- intros p Hp. apply (follows_grow e); [by eapply ents_grow_trans|].
             apply (follows_same e it); [by apply Hsame|intros q Hq; apply Hsame; by eapply rtc_r|auto].
        * assert (j' = j) as -> by congruence. split; [|done]. exists c, x. split_and!; [done..|by apply G1]. }
  apply (Hloop (sorted_names m) []) in H as (V1 & V2 & V3).
  - split_and!; [|done|].
    + intros q Hq. rewrite V1 by done. apply list_lookup_insert_ne. intros ->. by apply Hq.
    + assert (forall f j, link r ind f = Some j -> f ∈ sorted_names m) as Hin.
      { intros f j Hl. unfold link in Hl. rewrite Em in Hl. cbn in Hl. apply elem_of_sorted_names. eauto. }
      intros p Hp. apply rtc_inv in Hp as [<-|(q & [f Hf] & Hp)].
      * intros f j Hl. destruct (V3 f j (Hin f j Hl) Hl) as [(c & y & ? & ? & ?) _]. by exists c, i, y.
      * destruct (V3 f q (Hin f q Hf) Hf) as [_ Hfol]. by apply Hfol.
  - apply NoDup_sorted_names.
  - by rewrite list_lookup_insert.
  - intros f j Hf. by apply elem_of_nil in Hf.
Qed.

(** Looking the references up is the same walk without any new reference. *)
Lemma relation_items_unique fuel e : forall items ind i items', relation_items fuel (en_refs e) ds r items ind i = Ok items' ->
  unique_entities fuel rid ds r (e, items) ind i = Ok (e, items').
Proof.
  induction fuel as [|fuel IH]; intros items ind i items' H; cbn [relation_items unique_entities] in *; [done|].
  apply obind_Ok in H as (it1 & Hp & H). rewrite Hp. cbn [obind]. destruct (r !! ind) as [m|]; [|by injection H as ->].
  clear Hp. revert it1 H. generalize (sorted_names m). intros fs. induction fs as [|f fs IHf]; intros it1 H; cbn [foldM] in *; [by injection H as ->|].
  apply obind_Ok in H as (it2 & Hst & H). unfold items_step in Hst.
  apply obind_Ok in Hst as (j & Hj%at_Ok & Hst). apply obind_Ok in Hst as (c & Hc%at_Ok & Hst).
  apply obind_Ok in Hst as (mc & Hm%at_Ok & Hst). apply obind_Ok in Hst as (x & Hx%at_Ok & Hst). apply IH in Hst.
  cbn [unique_step]. rewrite Hj. cbn [at_ obind]. rewrite Hc. cbn [idx_ obind]. unfold unique_reference at 1.
  rewrite Hm. cbn [at_ obind]. rewrite Hx. cbn [obind]. rewrite Hm. cbn [at_ obind]. rewrite Hx. cbn [at_ obind].
  rewrite Hst. cbn [obind]. by apply IHf.
Qed.

(** Filled vectors. *)
Definition filled (e : ents) (l : items_t) : Prop := length l = length ds /\ forall p, follows e l p.
Lemma reach_all (Hc : forall j, S j < length ds -> exists i f, link r i f = Some j) p : p < length ds -> reach (length ds - 1) p.
Proof.
  remember (length ds - p) as n eqn:En. revert p En. induction n as [n IH] using lt_wf_ind. intros p En Hp.
  destruct (decide (S p < length ds)) as [Hlt|Hlt]; [|replace p with (length ds - 1) by lia; constructor].
  destruct (Hc p Hlt) as (i & f & Hl). destruct (Hs _ _ _ Hl) as (Hpi & k & k' & Hk & _). apply lookup_lt_Some in Hk.
  eapply rtc_r; [|by exists f]. eapply (IH (length ds - i)); [lia|lia|done].
Qed.
Lemma unique_items_fill (Hu : links_unique) (Hc : forall j, S j < length ds -> exists i f, link r i f = Some j) e i e' l :
  unique_items_for rid e ds r i = Ok (e', l) -> filled e' l /\ last l = Some i.
Proof.
  unfold unique_items_for. destruct (length ds) as [|n] eqn:En; [done|]. intros H.
  destruct (unique_entities_step _ _ _ _ _ _ _ H) as [_ HL]. destruct (unique_entities_fill Hu _ _ _ _ _ _ _ H) as (_ & H2 & H3).
  rewrite replicate_length in HL. rewrite last_lookup, HL. split; [|done]. split; [congruence|].
  intros p. destruct (decide (p < length ds)) as [Hp|Hp].
  - apply H3. replace n with (length ds - 1) by lia. apply reach_all; [|done]. by rewrite En.
  - intros f j Hl. destruct (Hs _ _ _ Hl) as (_ & k & k' & Hk & _). apply lookup_lt_Some in Hk. lia.
Qed.
Lemma items_for_unique e i l : items_for (en_refs e) ds r i = Ok l -> unique_items_for rid e ds r i = Ok (e, l).
Proof. unfold items_for, unique_items_for. destruct (length ds); [done|]. apply relation_items_unique. Qed.
Lemma unique_items_step e i e' l : unique_items_for rid e ds r i = Ok (e', l) -> step_ok rid cs e e'.
Proof. unfold unique_items_for. destruct (length ds); [done|]. intros H. by apply unique_entities_step in H as [? _]. Qed.
End Walk.

(** * The layout of the vectors of a class *)
Section Layout.
Context (cs : gmap string pclass).
(** The items follow the links of declared reference fields. *)
Definition agrees (e : ents) (ds : list string) (r : links) (l : items_t) : Prop := forall p c f k j,
  ds !! p = Some c -> refers cs c f k -> link r p f = Some j -> exists x y, l !! p = Some x /\ l !! j = Some y /\ recorded e c f x y.
Definition laid (c : string) (ds : list string) (r : links) : Prop := forall e i l,
  length l = length ds -> last l = Some i -> agrees e ds r l -> class_vector cs e c i l.
Definition laid_fields (c : string) (dn : list (string * string)) (ds : list string) (ri : links) (own : gmap string nat) : Prop :=
  forall e i l, length l = length ds -> agrees e ds ri l ->
  (forall f j, f ∈ dn.*1 -> own !! f = Some j -> exists y, l !! j = Some y /\ recorded e c f i y) ->
  exists ls, l = concat ls /\ class_vectors cs e c i dn ls.

Lemma agrees_low e ds d ri r l1 l2 own dn : forest cs ds ri own dn -> length l1 = length ds ->
  agrees e (ds ++ d) (copy_links (length ds) r ri) (l1 ++ l2) -> agrees e ds ri l1.
Proof.
  intros F Hlen H p c f k j Hp Hr Hl. destruct (fo_present _ _ _ _ _ F _ _ _ _ Hp Hr) as (j' & Hj' & Hlt & _). assert (j' = j) as -> by congruence.
  pose proof (lookup_lt_Some _ _ _ Hp) as Hpl.
  destruct (H p c f k j) as (x & y & Hx & Hy & Hrec).
  - by rewrite lookup_app_l.
  - done.
  - unfold link. by rewrite copy_links_low.
  - rewrite lookup_app_l in Hx by lia. rewrite lookup_app_l in Hy by lia. by exists x, y.
Qed.
Lemma agrees_high e ds d ri r l1 l2 : length l1 = length ds ->
  agrees e (ds ++ d) (copy_links (length ds) r ri) (l1 ++ l2) -> agrees e d r l2.
Proof.
  intros Hlen H p c f k j Hp Hr Hl. apply (copy_links_high (length ds) _ ri) in Hl.
  destruct (H (p + length ds) c f k (j + length ds)) as (x & y & Hx & Hy & Hrec).
  - rewrite lookup_app_r by lia. by replace (p + length ds - length ds) with p by lia.
  - done.
  - done.
  - rewrite lookup_app_r in Hx by lia. rewrite lookup_app_r in Hy by lia. exists x, y.
    replace (p + length ds - length l1) with p in Hx by lia. replace (j + length ds - length l1) with j in Hy by lia. done.
Qed.
Lemma laid_add c dn ds ri own f k d r : forest cs ds ri own dn -> f ∉ dn.*1 -> 0 < length d -> laid k d r -> laid_fields c dn ds ri own ->
  laid_fields c (dn ++ [(f, k)]) (ds ++ d) (copy_links (length ds) r ri) (<[f := length ds + length d - 1]> own).
Proof.
  intros F Hf Hd HL HF e i l Hlen Ha Hown. rewrite app_length in Hlen.
  assert (exists l1 l2, l = l1 ++ l2 /\ length l1 = length ds) as (l1 & l2 & -> & Hl1).
  { exists (take (length ds) l), (drop (length ds) l). rewrite take_drop, take_length. split; [done|lia]. }
  rewrite app_length in Hlen.
  destruct (HF e i l1 Hl1) as (ls & -> & Hls).
  - by eapply agrees_low.
  - intros g j Hg Hj. destruct (Hown g j) as (y & Hy & Hrec).
    + rewrite fmap_app. set_solver.
    + rewrite lookup_insert_ne; [done|]. intros <-. done.
    + exists y. split; [|done]. rewrite lookup_app_l in Hy; [done|]. destruct (fo_own_inv _ _ _ _ _ F g j Hj). lia.
  - destruct (Hown f (length ds + length d - 1)) as (y & Hy & Hrec); [rewrite fmap_app; set_solver|by rewrite lookup_insert|].
    rewrite lookup_app_r in Hy by lia. exists (ls ++ [l2]). split; [by rewrite concat_app; cbn; rewrite app_nil_r|].
    eapply class_vectors_snoc; [done|done|]. apply HL; [lia| |by eapply agrees_high].
    rewrite last_lookup. rewrite <- Hy. f_equal. lia.
Qed.
Lemma laid_nil c : laid_fields c [] [] ∅ ∅.
Proof. intros e i l Hl _ _. destruct l; [|done]. exists []. split; [done|constructor]. Qed.
Lemma laid_close c cl ds ri own : cs !! c = Some cl -> forest cs ds ri own (fields_of cl) -> laid_fields c (fields_of cl) ds ri own ->
  laid c (ds ++ [c]) (<[length ds := own]> ri).
Proof.
  intros Hc F HF e i l Hlen Hlast Ha. rewrite app_length in Hlen. cbn in Hlen.
  apply last_Some in Hlast as [l1 ->]. rewrite app_length in Hlen. cbn in Hlen.
  destruct (HF e i l1) as (ls & -> & Hls); [lia| | |].
  - intros p c' f k j Hp Hr Hl. destruct (fo_present _ _ _ _ _ F _ _ _ _ Hp Hr) as (j' & Hj' & Hlt & _). assert (j' = j) as -> by congruence.
    pose proof (lookup_lt_Some _ _ _ Hp) as Hpl. destruct (Ha p c' f k j) as (x & y & Hx & Hy & Hrec).
    + by rewrite lookup_app_l.
    + done.
    + unfold link. by rewrite lookup_insert_ne by lia.
    + rewrite lookup_app_l in Hx by lia. rewrite lookup_app_l in Hy by lia. by exists x, y.
  - intros f j Hf Hj. apply elem_of_list_fmap in Hf as ([f' k] & -> & Hf). cbn in *. apply (fields_refers cs c cl) in Hf; [|done].
    destruct (Ha (length ds) c f' k j) as (x & y & Hx & Hy & Hrec).
    + rewrite lookup_app_r by lia. by rewrite Nat.sub_diag.
    + done.
    + unfold link. by rewrite lookup_insert.
    + rewrite lookup_app_r in Hx by lia. replace (length ds - length l1) with 0 in Hx by lia. injection Hx as <-.
      destruct (fo_own_inv _ _ _ _ _ F f' j Hj). rewrite lookup_app_l in Hy by lia. by exists y.
  - econstructor; [done|apply fields_of_spec|done].
Qed.
Lemma laid_leaf c cl : cs !! c = Some cl -> fields_of cl = [] -> laid c [c] ∅.
Proof.
  intros Hc Hf e i l Hlen Hlast _. destruct l as [|x [|]]; try done. injection Hlast as ->.
  apply (CV cs e c cl i [] []); [done|rewrite <- Hf; apply fields_of_spec|constructor].
Qed.

Context (dm : gmap string (list string)) (Hdm : dom_inv cs dm) (Hall : forall c, is_Some (cs !! c) -> is_Some (dm !! c)).
Definition laid_inv (cache : gmap string links) : Prop := links_inv cs dm cache /\ forall c r, cache !! c = Some r ->
  exists ds, dm !! c = Some ds /\ laid c ds r.
Lemma treated_laid cache k d : laid_inv cache -> treated cs cache k -> is_Some (cs !! k) -> dm !! k = Some d -> laid k d (default ∅ (cache !! k)).
Proof.
  intros [_ Hi] Ht [cl Hk] Hd. destruct (cache !! k) as [r|] eqn:E.
  - destruct (Hi _ _ E) as (d' & Hd' & H1). by simplify_eq.
  - destruct Ht as [[? Ht]|Hl]; [congruence|]. cbn. apply Hdm in Hd. pose proof (leaf_list _ _ _ Hl Hd) as ->.
    eapply laid_leaf; [done|]. destruct (fields_of cl) as [|[f q] fks] eqn:Ef; [done|].
    exfalso. apply (Hl f q). apply (fields_refers cs k cl); [done|]. rewrite Ef. left.
Qed.
Lemma laid_field_loop c cl rec (Hrec : forall cache k cache', laid_inv cache -> rec cache k = Ok cache' ->
    laid_inv cache' /\ dom cache ⊆ dom cache' /\ treated cs cache' k) :
  closed_schema cs -> cs !! c = Some cl ->
  forall fks dn st ds st', fields_of cl = dn ++ fks -> laid_inv (rs_cache st) -> rs_offset st = length ds ->
  field_lists cs dn ds -> forest cs ds (rs_links st) (rs_own st) dn -> (shallow cs c -> links_exact cs ds (rs_links st)) ->
  laid_fields c dn ds (rs_links st) (rs_own st) ->
  foldM (refs_field dm rec) st fks = Ok st' ->
  exists ds', laid_inv (rs_cache st') /\ dom (rs_cache st) ⊆ dom (rs_cache st') /\ rs_offset st' = length ds' /\
    field_lists cs (fields_of cl) ds' /\ forest cs ds' (rs_links st') (rs_own st') (fields_of cl) /\
    (shallow cs c -> links_exact cs ds' (rs_links st')) /\ laid_fields c (fields_of cl) ds' (rs_links st') (rs_own st').
Proof.
  intros Hcl Hc. induction fks as [|[f k] fks IH]; intros dn st ds st' Hdn Hi Ho Hf F He HF H; cbn -[elem_of] in H.
  - inv_ok H. rewrite Hdn, app_nil_r. exists ds. done.
  - apply obind_Ok in H as (st1 & Hs & H). apply obind_Ok in Hs as (cache & Hr & Hs).
    assert (refers cs c f k) as Href by (apply (fields_refers cs c cl); [done|]; rewrite Hdn; set_solver).
    assert (laid_inv cache /\ dom (rs_cache st) ⊆ dom cache /\ treated cs cache k) as (Hi2 & Hsub & Ht).
    { case_bool_decide as E; [injection Hr as <-; split_and!; [done..|left; by apply elem_of_dom]|]. by eapply Hrec. }
    destruct (treated_links cs dm Hdm Hall cache k (proj1 Hi2) Ht (Hcl _ _ _ Href)) as (d & Hd & HL & HE & Hlast).
    pose proof (treated_laid cache k d Hi2 Ht (Hcl _ _ _ Href) Hd) as HLk.
    rewrite Hd in Hs. cbn [at_ obind] in Hs.
    assert (match cache !! k with Some r => copy_links (rs_offset st) r (rs_links st) | None => rs_links st end =
            copy_links (length ds) (default ∅ (cache !! k)) (rs_links st)) as Eq.
    { rewrite <- Ho. by destruct (cache !! k). }
    rewrite Eq in Hs. injection Hs as <-.
    assert (f ∉ dn.*1) as Hfresh.
    { destruct (fields_of_spec cl) as (_ & Hnd & _). rewrite Hdn in Hnd. rewrite fmap_app in Hnd.
      apply NoDup_app in Hnd as (_ & Hnd & _). intros Hin. apply (Hnd f Hin). left. }
    set (s1 := RefsState _ _ _ _) in H.
    destruct (IH (dn ++ [(f, k)]) s1 (ds ++ d) st') as (ds' & H1 & H2 & H3 & H4 & H5 & H6 & H7); [..|exact H|]; cbn.
    + by rewrite <- app_assoc.
    + done.
    + rewrite app_length. lia.
    + apply field_lists_snoc; [done|by apply Hdm].
    + rewrite Ho. by apply forest_add.
    + intros Hsh. eapply exact_add; [done|auto|apply HE|].
      * intros a b e [g Hg] Hb Hb'. eapply Hsh; [by exists f|by exists g|done].
      * eapply single_links; [|by apply Hdm|done]. intros g q Hg f' q' Hq. eapply Hsh; [by exists f|by exists g|by exists f'].
    + rewrite Ho. apply laid_add; try done. destruct d; [done|cbn; lia].
    + exists ds'. split_and!; try done. cbn in H2. set_solver.
Qed.
Lemma compute_refs_for_laid fuel : closed_schema cs -> forall cache name cache', laid_inv cache ->
  compute_refs_for fuel cs dm cache name = Ok cache' -> laid_inv cache' /\ dom cache ⊆ dom cache' /\ treated cs cache' name.
Proof.
  intros Hclo. induction fuel as [|fuel IH]; intros cache name cache' Hinv H; [done|].
  destruct (compute_refs_for_sound cs dm Hdm Hall (S fuel) Hclo cache name cache' (proj1 Hinv) H) as (HI & HS & HT).
  split_and!; [|done|done]. split; [done|]. cbn [compute_refs_for] in H.
  apply obind_Ok in H as (_ & _ & H). apply obind_Ok in H as (cl & Hcl & H). apply at_Ok in Hcl.
  apply obind_Ok in H as (st & Hl & H). rewrite refs_loop in Hl.
  destruct (laid_field_loop name cl _ IH Hclo Hcl (fields_of cl) [] (RefsState 0 ∅ ∅ cache) [] st) as (ds & H1 & H2 & H3 & H4 & H5 & H6 & H7);
    [done|done|done|apply FL_nil|apply forest_nil|intros _ i f j Hk; unfold link in Hk; cbn [rs_links] in Hk; by rewrite lookup_empty in Hk|apply laid_nil|done|].
  case_bool_decide as E; injection H as <-; [apply H1|].
  intros c r [[<- <-]|[_ Hc]]%lookup_insert_Some; [|by apply H1].
  destruct (Hall name) as [ds' Hds']; [eauto|]. exists ds'.
  assert (ds' = ds ++ [name]) as ->.
  { apply Hdm in Hds'. eapply domain_list_det; [|exact Hds']. by econstructor. }
  split; [done|]. rewrite H3. by eapply laid_close.
Qed.
Lemma compute_refs_laid fuel cache : closed_schema cs -> compute_refs fuel cs dm = Ok cache ->
  forall c d, is_Some (cs !! c) -> dm !! c = Some d -> laid c d (default ∅ (cache !! c)).
Proof.
  intros Hclo H. pose proof (compute_refs_sound cs dm Hdm Hall fuel cache Hclo H) as [_ Ht]. unfold compute_refs in H.
  assert (forall l c0 cache, laid_inv c0 -> foldM (fun cache name => if bool_decide (name ∈ dom cache) then Ok cache else compute_refs_for fuel cs dm cache name) c0 l = Ok cache ->
    laid_inv cache) as Hl.
  { induction l as [|c l IH]; intros c0 c1 Hinv Hf; cbn -[elem_of] in Hf; [by injection Hf as <-|].
    apply obind_Ok in Hf as (c2 & Hs & Hf). apply IH in Hf; [done|].
    case_bool_decide as E; [by injection Hs as <-|]. by eapply compute_refs_for_laid. }
  apply Hl in H; [|split; intros c r; by rewrite lookup_empty].
  intros c d Hc Hd. eapply treated_laid; [done|by apply Ht|done|done].
Qed.
End Layout.
