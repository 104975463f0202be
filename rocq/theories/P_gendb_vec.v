(** Item vectors of the relations of a PClean schema. *)
From Coq Require Import String Ascii.
From stdpp Require Import gmap strings list sorting relations.
From Coq Require Import ZArith Reals Lia.
From Verif Require Import M_base M_crp M_domain M_dist M_relation M_noisy M_irm M_hirm M_schema M_pclean_io M_gendb M_gendb_rels M_gendb_state M_pclean
  S_irm S_hirm S_gendb S_gendb_rels S_gendb_state P_base P_gendb P_gendb_links P_gendb_rels T_gendb_rels P_gendb_ents P_gendb_fill.
Local Open Scope nat_scope.

Scheme class_vector_ind2 := Induction for class_vector Sort Prop
with class_vectors_ind2 := Induction for class_vectors Sort Prop.
Combined Scheme class_vector_mut from class_vector_ind2, class_vectors_ind2.

Section Vectors.
Variables (only_final record_is_clean : bool) (s : pschema) (fuel : nat) (dm : gmap string (list string)) (refs : gmap string links) (m : made).
Hypotheses (WF : well_formed s) (Honce : record_is_clean = true -> record_queried_once s) (Hsh : forall c, shallow (ps_classes s) c)
  (Hdm : compute_domains fuel (ps_classes s) = Ok dm) (Hrefs : compute_refs fuel (ps_classes s) dm = Ok refs)
  (Hm : make_hirm_schema only_final record_is_clean s dm refs = Ok m).
Notation cs := (ps_classes s).
Notation rc := (pq_record (ps_query s)).
Notation fields := (pq_fields (ps_query s)).
Notation D := (doms dm).

(** The declarations and links of the relations. *)
Inductive made_of (n : string) : hdecl -> links -> Prop :=
| MO_attr c v j ps sp : attribute cs c v j ps -> n = attr_name c v -> made_of n (false, Clean (D c) sp) (default ∅ (refs !! c))
| MO_renamed v sp : record_is_clean = true -> fields !! n = Some [v] -> made_of n (true, Clean (D rc) sp) ∅
| MO_record v es : record_is_clean = false -> fields !! n = Some [v] ->
    made_of n (true, NoisyOf (D rc) es (attr_name rc v)) (default ∅ (refs !! rc))
| MO_final fs ks z v es : only_final = true -> queries s n fs ks z v -> fs <> [] -> is_Some (cs !! z) ->
    made_of n (true, NoisyOf (D z ++ reverse ks) es (attr_name z v))
      (match refs !! z with Some r => r | None => path_links (length (D z)) (reverse fs) end)
| MO_chain f f1 v0 f2 k1 k k2 z v j ps es o : only_final = false -> queries s f (f1 ++ v0 :: f2) (k1 ++ k :: k2) z v -> length f1 = length k1 ->
    attribute cs z v j ps ->
    n = match k1 with [] => f | _ => lower_name k f end ->
    made_of n (o, NoisyOf (D z ++ reverse k2 ++ [k]) es (match k2 with [] => attr_name z v | k' :: _ => lower_name k' f end))
      (default ∅ (refs !! z) ∪ path_links (length (D z)) (reverse f2 ++ [v0])).

Lemma made_cases n d : md_rels m !! n = Some d -> made_of n d (default ∅ (md_refs m !! n)).
Proof.
  intros Hd. destruct (computed_facts s fuel dm refs (wf_closed s WF) Hdm Hrefs) as (Hac & Hsm & Hend & HLR & HLE).
  destruct (make_hirm_schema_Ok only_final record_is_clean s dm refs WF Hac Hsm Honce) as (m' & E & [H1 H2]). rewrite Hm in E. injection E as <-.
  assert (forall f r, queried s f -> md_refs m !! f = Some r -> field_link only_final record_is_clean s dm refs f f r) as Hfield.
  { intros f r HD [(c & v' & j' & ps' & Ha' & -> & _)|(f' & HD' & Hl)]%H2.
    - exfalso. eapply (field_name_not_attr s WF); [|exact Ha'|by left|done]. by apply (wf_fields s WF).
    - assert (f' = f) as ->; [|done].
      eapply (field_name_inj f' f f); [by apply (wf_fields s WF)|by apply (wf_fields s WF)|by eapply (field_link_name only_final record_is_clean s dm refs WF Hac Hsm)|by left]. }
  apply H1 in Hd as [(c & v & j & ps & dd & e & t & Ha & Hj & Hr & -> & ->)|(f & HD & Hx)].
  - assert (md_refs m !! attr_name c v = refs !! c) as -> by (by eapply (attr_refs only_final record_is_clean s dm refs WF Hac Hsm _ m c v j ps (conj H1 H2))).
    by eapply MO_attr.
  - destruct Hx as [v j ps dd e t Hc Hf Ha Hj|v j ps dd e t Hc Hf Ha Hj|fs ks z v j ps dd e t Hof Hq Hfs Ha Hj|fs k1 k k2 z v j ps dd e t Hof Hq Ha Hj].
    + replace (md_refs m !! f) with (None (A:=links)); [by eapply MO_renamed|]. symmetry. apply eq_None_not_Some. intros [r Hr].
      apply Hfield in Hr; [|done]. inversion Hr as [|? ? ? ? Hof [Hq _] Hfs|? ? ? ? ? ? ? ? Hof [Hq _]]; subst; [congruence|..];
        try match goal with H : _ = f |- _ => rewrite H in Hq end; rewrite Hf in Hq; injection Hq as Hq;
        apply (f_equal length) in Hq; rewrite !app_length in Hq; simpl in Hq; [|lia]. destruct fs; simpl in *; [done|lia].
    + assert (md_refs m !! f = refs !! rc) as ->; [|by eapply MO_record].
      apply option_eq. intros r. split.
      * intros Hl%Hfield; [|done]. inversion Hl as [|? ? ? ? Hof [Hq _] Hfs|? ? ? ? ? ? ? ? Hof [Hq _]]; subst; [done|..];
        try match goal with H : _ = f |- _ => rewrite H in Hq end; rewrite Hf in Hq; injection Hq as Hq;
        apply (f_equal length) in Hq; rewrite !app_length in Hq; simpl in Hq; [|lia]. destruct fs; simpl in *; [done|lia].
      * intros Hr. apply H2. right. exists f. split; [done|]. by eapply FL_record_noisy.
    + assert (md_refs m !! f = Some (match refs !! z with Some r => r | None => path_links (length (D z)) (reverse fs) end)) as ->.
      { apply H2. right. exists f. split; [done|]. by eapply FL_final. }
      eapply MO_final; [done|done|done|]. destruct Ha as (? & ? & _). eauto.
    + pose proof (path_goes_lengths _ _ _ _ _ (proj2 Hq)) as Hlen.
      assert (exists f1 v0 f2, fs = f1 ++ v0 :: f2 /\ length f1 = length k1) as (f1 & v0 & f2 & -> & Hl1).
      { rewrite app_length in Hlen. simpl in Hlen. destruct (lookup_lt_is_Some_2 fs (length k1)) as [v0 Hv0]; [lia|].
        exists (take (length k1) fs), v0, (drop (S (length k1)) fs). rewrite take_drop_middle by done. split; [done|]. rewrite take_length. lia. }
      assert (md_refs m !! (match k1 with [] => f | _ => lower_name k f end) = Some (default ∅ (refs !! z) ∪ path_links (length (D z)) (reverse f2 ++ [v0]))) as ->.
      { apply H2. right. exists f. split; [done|]. by eapply (FL_chain only_final record_is_clean s dm refs f f1 v0 f2 k1 k k2 z v). }
      eapply MO_chain; [done|done|done|done|done].
Qed.

Lemma fill_sound ds r : links_fill cs ds r -> links_sound cs ds r.
Proof. intros HF i f j. apply (lf_sound _ _ _ HF). Qed.
Lemma class_fills c : is_Some (cs !! c) -> links_fill cs (D c) (default ∅ (refs !! c)).
Proof.
  intros Hc. destruct (computed_facts s fuel dm refs (wf_closed s WF) Hdm Hrefs) as (Hac & Hsm & Hend & HLR & HLE).
  apply right_fills; [by apply HLR|by apply HLE].
Qed.
Lemma chain_fills k fs ks z : is_Some (cs !! z) -> path_goes cs k fs ks z ->
  links_fill cs (D z ++ reverse ks) (default ∅ (refs !! z) ∪ path_links (length (D z)) (reverse fs)).
Proof.
  intros Hz Hp. destruct (computed_facts s fuel dm refs (wf_closed s WF) Hdm Hrefs) as (Hac & Hsm & Hend & HLR & HLE).
  destruct (Hend z Hz) as [dz Hdz]. pose proof (path_fills _ _ _ _ _ dz (default ∅ (refs !! z)) Hp) as HF. rewrite <- Hdz in HF.
  apply HF; [by apply class_fills|]. intros i Hi. destruct (refs !! z) as [r|] eqn:Hr; [by eapply Hsm|]. cbn in Hi. rewrite lookup_empty in Hi. by destruct Hi.
Qed.
(** No relation has a wrong link. *)
Lemma made_sound n d : md_rels m !! n = Some d -> links_sound cs (decl_domains d.2) (default ∅ (md_refs m !! n)).
Proof.
  intros Hd%made_cases. destruct Hd as [c v j ps sp Ha Hn|v sp Hc Hf|v es Hc Hf|fs ks z v es Hof Hq Hfs Hz|f f1 v0 f2 k1 k k2 z v j ps es o Hof Hq Hl Ha Hn]; cbn [decl_domains snd].
  - apply fill_sound, class_fills. destruct Ha as (? & ? & _). eauto.
  - intros i f j H. unfold link in H. by rewrite lookup_empty in H.
  - apply fill_sound, class_fills, (wf_record s WF).
  - destruct (refs !! z) as [r|] eqn:Hr.
    + pose proof (fill_sound _ _ (class_fills z Hz)) as HS. rewrite Hr in HS. cbn in HS. intros i f j Hl.
      destruct (HS i f j Hl) as (Hlt & k & k' & Hk & Hk' & Hrf). split; [done|]. exists k, k'.
      split_and!; [by apply lookup_app_l_Some|by apply lookup_app_l_Some|done].
    + pose proof (chain_fills _ _ _ _ Hz (proj2 Hq)) as HF. rewrite Hr in HF. cbn [default from_option] in HF. rewrite (left_id_L ∅ (∪)) in HF. by apply fill_sound.
  - assert (is_Some (cs !! z)) as Hz by (destruct Ha as (? & ? & _); eauto).
    pose proof (path_goes_suffix _ _ _ _ _ _ _ _ _ Hl (proj2 Hq)) as Hp.
    pose proof (chain_fills _ _ _ _ Hz Hp) as HF. rewrite !reverse_cons in HF. by apply fill_sound.
Qed.

(** ** Lengths *)
Lemma dom_of_list c : is_Some (cs !! c) -> domain_list cs c (D c).
Proof. intros Hc. destruct (compute_domains_sound _ _ _ Hdm) as [Hi Hd]. destruct (proj2 (Hd c) Hc) as [ds Hds]. unfold doms. rewrite Hds. by apply Hi. Qed.
Lemma class_vector_lengths e :
  (forall c i l, class_vector cs e c i l -> forall ds, domain_list cs c ds -> length l = length ds) /\
  (forall c i fks ls, class_vectors cs e c i fks ls -> forall ds, field_lists cs fks ds -> length (concat ls) = length ds).
Proof.
  apply class_vector_mut.
  - intros c cl i fks ls Hc Hf _ IH ds H. inversion H as [c' cl' ds1 Hc' Hl]; subst. assert (cl' = cl) as -> by congruence.
    apply reference_fields_unique in Hf as ->. rewrite !app_length, (IH _ Hl). done.
  - intros c i ds H. inversion H. done.
  - intros c i f k x l fks ls _ _ IH1 _ IH2 ds H. inversion H as [|? ? ? d ds' Hd Hds]; subst. cbn [concat]. by rewrite !app_length, (IH1 _ Hd), (IH2 _ Hds).
Qed.
Lemma class_vector_length e c i l : class_vector cs e c i l -> length l = length (D c).
Proof.
  intros H. eapply (proj1 (class_vector_lengths e)); [exact H|]. apply dom_of_list. inversion H; eauto.
Qed.
Lemma path_vector_length e c fs ks z i l : path_goes cs c fs ks z -> path_vector cs e c fs i l -> length l = length (D z) + length fs.
Proof.
  intros Hp. revert i l. induction Hp as [c|c f k fs ks z Hr Hp IH]; intros i l Hv.
  - inversion Hv as [? ? ? Hc|]; subst. apply class_vector_length in Hc. simpl. lia.
  - inversion Hv as [|? ? k' ? ? x l' Hr' Hx Hv']; subst. assert (k' = k) as -> by exact (refers_fun cs _ _ _ _ Hr' Hr).
    rewrite app_length, (IH _ _ Hv'). simpl. lia.
Qed.

(** ** From filled vectors to item vectors *)
Lemma filled_agrees e ds r l : filled ds r e l -> agrees cs e ds r l.
Proof.
  intros [_ HF] p c f k j Hp Hr Hl. destruct (HF p f j Hl) as (c' & x & y & Hc' & Hx & Hy & Hrec). assert (c' = c) as -> by congruence. eauto.
Qed.
Lemma filled_class e c i l : is_Some (cs !! c) -> filled (D c) (default ∅ (refs !! c)) e l -> last l = Some i -> class_vector cs e c i l.
Proof.
  intros Hc HF Hi. destruct (compute_domains_sound _ _ _ Hdm) as [Hinv Hd]. pose proof (proj2 (Hd c) Hc) as [ds Hds].
  pose proof (compute_refs_laid cs dm Hinv (fun c => proj2 (Hd c)) fuel refs (wf_closed s WF) Hrefs c ds Hc Hds) as HL.
  unfold doms in HF. rewrite Hds in HF. cbn [default from_option] in HF. apply HL; [apply HF|done|by apply filled_agrees].
Qed.
Lemma path_of_links e z n : 0 < n -> forall c fs ks, path_goes cs c fs ks z -> forall i l, length l = n + length ks -> last l = Some i ->
  (forall x, l !! (n - 1) = Some x -> class_vector cs e z x (take n l)) ->
  (forall p f k, reverse fs !! p = Some f -> reverse ks !! p = Some k ->
     exists x y, l !! (n + p) = Some x /\ l !! (n + p - 1) = Some y /\ recorded e k f x y) ->
  path_vector cs e c fs i l.
Proof.
  intros Hn c fs ks Hp. induction Hp as [c|c f k fs ks z Hr Hp IH]; intros i l Hlen Hlast Hc Hlk.
  - constructor. simpl in Hlen. rewrite Nat.add_0_r in Hlen. rewrite <- (firstn_all l), Hlen. apply Hc.
    by rewrite last_lookup, Hlen, <- Nat.sub_1_r in Hlast.
  - apply last_Some in Hlast as [l' ->]. rewrite app_length in Hlen. simpl in Hlen. pose proof (path_goes_lengths _ _ _ _ _ Hp) as Hlf.
    destruct (Hlk (length fs) f c) as (x & y & Hx & Hy & Hrec).
    { rewrite reverse_cons, lookup_app_r; rewrite reverse_length; [by rewrite Nat.sub_diag|done]. }
    { rewrite reverse_cons, lookup_app_r; rewrite reverse_length; [|lia]. by replace (length fs - length ks) with 0 by lia. }
    rewrite lookup_app_r in Hx by lia. replace (n + length fs - length l') with 0 in Hx by lia. injection Hx as <-.
    rewrite lookup_app_l in Hy by lia. econstructor; [exact Hr|exact Hrec|]. apply IH.
    + lia.
    + rewrite last_lookup. rewrite <- Hy. f_equal. lia.
    + intros w Hw. rewrite <- (take_app_le l' [i]) by lia. apply Hc. by apply lookup_app_l_Some.
    + intros p f' k' Hf' Hk'. pose proof (lookup_lt_Some _ _ _ Hf') as Hpl. rewrite reverse_length in Hpl.
      destruct (Hlk p f' k') as (x' & y' & Hx' & Hy' & Hrec').
      * rewrite reverse_cons. by apply lookup_app_l_Some.
      * rewrite reverse_cons. by apply lookup_app_l_Some.
      * rewrite lookup_app_l in Hx' by lia. rewrite lookup_app_l in Hy' by lia. eauto.
Qed.
Lemma filled_path e k fs ks z i l : is_Some (cs !! z) -> path_goes cs k fs ks z ->
  filled (D z ++ reverse ks) (default ∅ (refs !! z) ∪ path_links (length (D z)) (reverse fs)) e l -> last l = Some i -> path_vector cs e k fs i l.
Proof.
  intros Hz Hp [Hlen HF] Hi. destruct (computed_facts s fuel dm refs (wf_closed s WF) Hdm Hrefs) as (Hac & Hsm & Hend & HLR & HLE).
  destruct (Hend z Hz) as [dz Hdz]. assert (0 < length (D z)) as Hpos by (rewrite Hdz, app_length; simpl; lia).
  rewrite app_length, reverse_length in Hlen. pose proof (path_goes_lengths _ _ _ _ _ Hp) as Hlf.
  apply (path_of_links e z (length (D z)) Hpos k fs ks Hp i l Hlen Hi).
  - intros x Hx. apply filled_class; [done| |].
    + split; [rewrite take_length; lia|]. intros p f j Hl.
      destruct (lf_sound _ _ _ (class_fills z Hz) _ _ _ Hl) as (Hlt & k1 & k' & Hk1 & Hk' & Hr). pose proof (lookup_lt_Some _ _ _ Hk1) as Hpl.
      destruct (HF p f j) as (c & x' & y & Hc & Hx' & Hy & Hrec).
      { unfold link in Hl |- *. apply bind_Some in Hl as (w & Hw & Hf). apply bind_Some. exists w. split; [|done]. apply lookup_union_Some_raw. by left. }
      exists c, x', y. rewrite !lookup_take by lia. rewrite lookup_app_l in Hc by done. done.
    + rewrite last_lookup, take_length, Nat.min_l by lia. rewrite lookup_take by lia. rewrite <- Hx. f_equal. lia.
  - intros p f c Hf Hc. destruct (HF (length (D z) + p) f (length (D z) + p - 1)) as (c' & x & y & Hc' & Hx & Hy & Hrec).
    { unfold link. apply bind_Some. exists {[f := length (D z) + p - 1]}. split; [|apply lookup_singleton].
      apply lookup_union_Some_raw. right. split.
      - apply eq_None_not_Some. intros Hi'. destruct (refs !! z) as [r|] eqn:Hr; [|cbn in Hi'; rewrite lookup_empty in Hi'; by destruct Hi'].
        apply (Hsm z r _ Hr) in Hi'. lia.
      - apply path_links_lookup. by exists p, f. }
    rewrite lookup_app_r in Hc' by lia. replace (length (D z) + p - length (D z)) with p in Hc' by lia. assert (c' = c) as -> by congruence. eauto.
Qed.

(** ** Relations with their own entry, and an emission for each class of a path *)
Definition direct (n : string) : Prop := ~ (record_is_clean = true /\ exists v, fields !! n = Some [v]).
Lemma filled_vector e n d i l : only_final = false -> md_rels m !! n = Some d -> direct n ->
  filled (decl_domains d.2) (default ∅ (md_refs m !! n)) e l -> last l = Some i -> relation_vector s e n l.
Proof.
  intros Hof Hd Hpl. apply made_cases in Hd. revert Hpl. destruct Hd as [c v j ps sp Ha Hn|v sp Hc Hf|v es Hc Hf|fs ks z v es Hof' Hq Hfs Hz|f f1 v0 f2 k1 k k2 z v j ps es o Hof' Hq Hl Ha Hn]; cbn [decl_domains snd];
    intros Hpl HF Hi.
  - rewrite Hn. eapply RV_attribute; [done|]. eapply filled_class; [|exact HF|exact Hi]. destruct Ha as (? & ? & _). eauto.
  - exfalso. apply Hpl. eauto.
  - eapply RV_record; [done|]. eapply filled_class; [apply (wf_record s WF)|exact HF|exact Hi].
  - congruence.
  - assert (is_Some (cs !! z)) as Hz by (destruct Ha as (? & ? & _); eauto).
    pose proof (path_goes_suffix _ _ _ _ _ _ _ _ _ Hl (proj2 Hq)) as Hp. rewrite Hn.
    eapply RV_chain; [exact Hq|done|]. eapply filled_path; [done|exact Hp| |exact Hi]. by rewrite !reverse_cons.
Qed.

(** The path of a relation's name. *)
Lemma vector_record e f v l : fields !! f = Some [v] -> relation_vector s e f l -> exists i, class_vector cs e rc i l.
Proof.
  intros Hf Hv. assert (no_colon f) as Hcol by (apply (wf_fields s WF); eauto).
  inversion Hv as [c v' j ps i l' Ha Hc Hn|? v' i l' Hf' Hc|f' f1 v0 f2 k1 k k2 z v' i l' Hq Hl Hp Hn]; subst.
  - by apply (attr_not_field c v') in Hcol.
  - eauto.
  - exfalso. destruct k1 as [|k0 k1].
    + destruct Hq as [Hq _]. rewrite Hf in Hq. injection Hq as Hq. apply (f_equal length) in Hq. rewrite !app_length in Hq. simpl in Hq. lia.
    + by eapply lower_not_field.
Qed.
Lemma query_split f f1 v0 f2 k1 k k2 z v f1' v0' f2' k1' k2' z' v' :
  queries s f (f1 ++ v0 :: f2) (k1 ++ k :: k2) z v -> length f1 = length k1 ->
  queries s f (f1' ++ v0' :: f2') (k1' ++ k :: k2') z' v' -> length f1' = length k1' -> v0' :: f2' = v0 :: f2.
Proof.
  intros Hq Hl Hq' Hl'. destruct (queries_det s _ _ _ _ _ _ _ _ _ Hq Hq') as (Ef & Ek & Ez & Ev).
  destruct (computed_facts s fuel dm refs (wf_closed s WF) Hdm Hrefs) as (Hac & _).
  pose proof (path_goes_nodup _ _ _ _ _ Hac (proj2 Hq)) as Hnd. apply NoDup_app in Hnd as (Hnd & _).
  assert (k1' = k1) as ->.
  { assert (forall k1 k1' k2 k2', NoDup (k1 ++ k :: k2) -> k1' ++ k :: k2' = k1 ++ k :: k2 -> k1' = k1) as HN; [|by eapply HN].
    clear. induction k1 as [|a k1 IH]; intros k1' k2 k2' Hnd E; destruct k1' as [|a' k1']; simpl in *; [done|..].
    - injection E as -> E. apply NoDup_cons in Hnd as [Hk _]. exfalso. apply Hk. rewrite <- E. set_solver.
    - injection E as <- E. apply NoDup_cons in Hnd as [Hk _]. exfalso. apply Hk. set_solver.
    - injection E as -> E. apply NoDup_cons in Hnd as [_ Hnd]. f_equal. by eapply IH. }
  apply app_inj_1 in Ef as [_ Ef]; [done|lia].
Qed.
Lemma vector_chain e f f1 v0 f2 k1 k k2 z v l : queries s f (f1 ++ v0 :: f2) (k1 ++ k :: k2) z v -> length f1 = length k1 ->
  relation_vector s e (match k1 with [] => f | _ => lower_name k f end) l -> exists i, path_vector cs e k (v0 :: f2) i l.
Proof.
  intros Hq Hl Hv. assert (no_colon f) as Hcol by (apply (wf_fields s WF); destruct Hq as [-> _]; eauto).
  destruct (path_goes_declared _ _ _ _ _ (wf_closed s WF) (wf_record s WF) (proj2 Hq)) as [_ Hdec].
  assert (no_colon k) as Hk by (apply (wf_classes s WF), Hdec; set_solver).
  remember (match k1 with [] => f | _ => lower_name k f end) as n eqn:En.
  destruct Hv as [c v' j ps i l Ha Hc|f' v' i l Hf' Hc|f' f1' v0' f2' k1' k' k2' z' v' i l Hq' Hl' Hp].
  - exfalso. change (attr_name c v' = match k1 with [] => f | _ => lower_name k f end) in En. destruct k1 as [|k0 k1].
    + by apply (attr_not_field c v') in Hcol.
    + eapply (attr_not_lower c v' k f); [| |done|done]; destruct Ha as (cl & Hcl & Hcv);
        [apply (wf_classes s WF); eauto|eapply (wf_vars s WF); eauto].
  - exfalso. destruct k1 as [|k0 k1].
    + subst f'. destruct Hq as [Hq _]. rewrite Hf' in Hq. injection Hq as Hq. apply (f_equal length) in Hq. rewrite !app_length in Hq. simpl in Hq. lia.
    + eapply (lower_not_field k f f'); [|done]. apply (wf_fields s WF). eauto.
  - assert (no_colon f') as Hcol' by (apply (wf_fields s WF); destruct Hq' as [-> _]; eauto).
    destruct (path_goes_declared _ _ _ _ _ (wf_closed s WF) (wf_record s WF) (proj2 Hq')) as [_ Hdec'].
    assert (no_colon k') as Hk' by (apply (wf_classes s WF), Hdec'; set_solver).
    change (match k1' with [] => f' | _ => lower_name k' f' end = match k1 with [] => f | _ => lower_name k f end) in En.
    assert (f' = f /\ k' = k) as [-> ->].
    { destruct k1 as [|k0 k1], k1' as [|k0' k1'].
      - split; [done|]. destruct Hq as [_ Hq], Hq' as [_ Hq']. destruct f1 as [|? f1]; [|done]. destruct f1' as [|? f1']; [|done].
        inversion Hq; subst. inversion Hq'; subst. done.
      - by eapply lower_not_field in Hcol.
      - symmetry in En. by eapply lower_not_field in Hcol'.
      - by apply lower_inj in En as [-> ->]. }
    exists i. by rewrite <- (query_split _ _ _ _ _ _ _ _ _ _ _ _ _ _ _ _ Hq Hl Hq' Hl').
Qed.
Lemma attr_decl z v j ps : attribute cs z v j ps -> (record_is_clean = true -> z <> rc) ->
  exists sp, md_rels m !! attr_name z v = Some (false, Clean (D z) sp).
Proof.
  intros Ha Hz. destruct (wf_joints s WF _ _ _ _ Ha) as [[[d e] t] Hj]. eexists. eapply made_rels; try done.
  eapply R_attribute; [done|done|]. intros (? & ? & _). by apply Hz.
Qed.
Lemma chain_decl f fs k1 k k2 z v j ps : only_final = false -> queries s f fs (k1 ++ k :: k2) z v -> attribute cs z v j ps -> k1 <> [] ->
  exists x, md_rels m !! lower_name k f = Some x /\ decl_domains x.2 = D z ++ reverse k2 ++ [k].
Proof.
  intros Hof Hq Ha Hk. destruct (wf_joints s WF _ _ _ _ Ha) as [[[d e] t] Hj].
  assert (queried s f) as HD by (unfold queried; destruct Hq as [-> _]; eauto).
  pose proof (R_chain only_final record_is_clean s dm (queried s) f fs k1 k k2 z v j ps d e t HD Hof Hq Ha Hj) as HR.
  destruct k1 as [|k0 k1]; [done|]. eapply made_rels in HR; try done. eexists. split; [exact HR|done].
Qed.
(** The prefix for the base is an item vector of the base. *)
Lemma vector_base e n o ds es b l db : only_final = false -> md_rels m !! n = Some (o, NoisyOf ds es b) -> md_rels m !! b = Some db ->
  relation_vector s e n l -> relation_vector s e b (take (length (decl_domains db.2)) l).
Proof.
  intros Hof Hd Hb Hv. apply made_cases in Hd. remember (o, NoisyOf ds es b) as d eqn:Ed. remember (default ∅ (md_refs m !! n)) as lk eqn:Elk.
  destruct Hd as [c v j ps sp Ha Hn|v sp Hc Hf|v es' Hc Hf|fs ks z v es' Hof' Hq Hfs Hz|f f1 v0 f2 k1 k k2 z v j ps es' o' Hof' Hq Hl Ha Hn];
    [discriminate|discriminate| |congruence|].
  - injection Ed as <- <- <- Eb. destruct (vector_record _ _ _ _ Hf Hv) as [i Hi].
    destruct (wf_paths s WF n _ Hf) as (fs & ks & z & v' & j & ps & [Hq Hp] & Ha). rewrite Hf in Hq. injection Hq as Hq.
    destruct fs as [|? [|? ?]]; [|done..]. injection Hq as <-. inversion Hp; subst z ks.
    destruct (attr_decl _ _ _ _ Ha) as [sp Hsp]; [congruence|]. rewrite <- Eb in Hb. assert (db = (false, Clean (D rc) sp)) as -> by congruence.
    cbn [decl_domains snd]. rewrite <- (class_vector_length _ _ _ _ Hi), firstn_all. rewrite <- Eb. by eapply RV_attribute.
  - injection Ed as <- <- <- Eb. subst n. assert (only_final = false /\ True) as HOF by done. clear Hof Hof'. destruct (vector_chain _ _ _ _ _ _ _ _ _ _ _ Hq Hl Hv) as [i Hi].
    pose proof (path_goes_suffix _ _ _ _ _ _ _ _ _ Hl (proj2 Hq)) as Hp. inversion Hp as [|? ? k' ? ? ? Hr Hp']; subst.
    inversion Hi as [|? ? k'' ? ? x l' Hr' Hx Hv']; subst. assert (k'' = k') as -> by exact (refers_fun cs _ _ _ _ Hr' Hr).
    pose proof (path_vector_length _ _ _ _ _ _ _ Hp' Hv') as Hlen. pose proof (path_goes_lengths _ _ _ _ _ Hp') as Hlf.
    destruct k2 as [|k3 k2].
    + inversion Hp'; subst. inversion Hv' as [? ? ? Hc|]; subst. simpl in Hlen.
      destruct (attr_decl _ _ _ _ Ha) as [sp Hsp].
      { intros _. eapply (not_record s fuel dm refs); [done|done|done|exact Hq|]. by destruct f1. }
      assert (db = (false, Clean (D z) sp)) as -> by congruence. cbn [decl_domains snd].
      rewrite take_app_alt by lia. by eapply RV_attribute.
    + destruct f2 as [|w0 f2]; [simpl in Hlf; lia|]. assert (k3 = k') as -> by by inversion Hp'.
      assert (queries s f ((f1 ++ [v0]) ++ w0 :: f2) ((k1 ++ [k]) ++ k' :: k2) z v) as Hq' by (by rewrite <- !app_assoc).
      destruct (chain_decl f _ (k1 ++ [k]) k' k2 z v j ps (proj1 HOF) Hq' Ha) as (x' & Hx' & Hdx); [by destruct k1|].
      assert (db = x') as -> by congruence. rewrite Hdx, !app_length, reverse_length. cbn [length] in *.
      rewrite take_app_alt by lia.
      pose proof (RV_chain s e f (f1 ++ [v0]) w0 f2 (k1 ++ [k]) k' k2 z v x l' Hq') as HRV. rewrite !app_length in HRV.
      cbn [length] in HRV. specialize (HRV ltac:(lia) Hv'). by destruct k1.
Qed.
(** The items of a path of a query field. *)
Lemma path_field e q fs v i l : only_final = false -> fields !! q = Some (fs ++ [v]) -> path_vector cs e rc fs i l -> relation_vector s e q l.
Proof.
  intros Hof Hq Hv. destruct (wf_paths s WF q _ Hq) as (fs' & ks & z & v' & j & ps & [Hq' Hp] & Ha). rewrite Hq in Hq'. injection Hq' as Hq'.
  apply app_inj_tail in Hq' as [<- <-]. destruct fs as [|f fs].
  - inversion Hv; subst. by eapply RV_record.
  - inversion Hp as [|? ? k ? ks' ? Hr Hp']; subst.
    apply (RV_chain s e q [] f fs [] rc ks' z v i l); [split; [done|by econstructor]|done|done].
Qed.

(** No item has two sources. *)
Lemma fill_unique ds r : links_fill cs ds r -> links_unique r.
Proof. intros HF i i' f f' j. apply (lf_unique _ _ _ HF). Qed.
Lemma made_unique n d : md_rels m !! n = Some d -> links_unique (default ∅ (md_refs m !! n)).
Proof.
  intros Hd%made_cases. destruct Hd as [c v j ps sp Ha Hn|v sp Hc Hf|v es Hc Hf|fs ks z v es Hof Hq Hfs Hz|f f1 v0 f2 k1 k k2 z v j ps es o Hof Hq Hl Ha Hn]; cbn [decl_domains snd].
  - eapply fill_unique, class_fills. destruct Ha as (? & ? & _). eauto.
  - intros i i' f f' j H. unfold link in H. by rewrite lookup_empty in H.
  - eapply fill_unique, class_fills, (wf_record s WF).
  - destruct (refs !! z) as [r|] eqn:Hr.
    + pose proof (fill_unique _ _ (class_fills z Hz)) as HS. by rewrite Hr in HS.
    + pose proof (chain_fills _ _ _ _ Hz (proj2 Hq)) as HF. rewrite Hr in HF. cbn [default from_option] in HF. rewrite (left_id_L ∅ (∪)) in HF. by eapply fill_unique.
  - assert (is_Some (cs !! z)) as Hz by (destruct Ha as (? & ? & _); eauto).
    pose proof (path_goes_suffix _ _ _ _ _ _ _ _ _ Hl (proj2 Hq)) as Hp.
    pose proof (chain_fills _ _ _ _ Hz Hp) as HF. rewrite !reverse_cons in HF. by eapply fill_unique.
Qed.
Lemma unique_items_last rid n d e i e' l : md_rels m !! n = Some d ->
  unique_items_for rid e (decl_domains d.2) (default ∅ (md_refs m !! n)) i = Ok (e', l) -> last l = Some i.
Proof.
  intros Hd H. pose proof (made_sound n d Hd) as HS. pose proof (made_unique n d Hd) as HU. unfold unique_items_for in H.
  destruct (length (decl_domains d.2)) as [|k] eqn:Ek; [done|].
  pose proof (unique_entities_step rid cs _ _ HS _ _ _ _ _ _ _ H) as [_ HL]. rewrite replicate_length in HL.
  destruct (unique_entities_fill rid cs _ _ HS HU _ _ _ _ _ _ _ H) as (_ & H2 & _). by rewrite last_lookup, HL.
Qed.
(** An item vector is determined by its last item. *)
Lemma class_vector_last e c i l : class_vector cs e c i l -> last l = Some i.
Proof. intros H. inversion H. by rewrite last_snoc. Qed.
Lemma path_vector_last e c fs i l : path_vector cs e c fs i l -> last l = Some i.
Proof. intros H. inversion H; [by eapply class_vector_last|by rewrite last_snoc]. Qed.
Lemma class_vector_det e :
  (forall c i l, class_vector cs e c i l -> forall l', class_vector cs e c i l' -> l' = l) /\
  (forall c i fks ls, class_vectors cs e c i fks ls -> forall ls', class_vectors cs e c i fks ls' -> ls' = ls).
Proof.
  apply class_vector_mut.
  - intros c cl i fks ls Hc Hf _ IH l' H. inversion H as [c' cl' i' fks' ls' Hc' Hf' Hl]; subst. assert (cl' = cl) as -> by congruence.
    apply reference_fields_unique in Hf as ->. apply reference_fields_unique in Hf' as ->. by rewrite (IH _ Hl).
  - intros c i ls' H. by inversion H.
  - intros c i f k x l fks ls Hr _ IH1 _ IH2 ls' H. inversion H as [|? ? ? ? x' l' ? ls1 Hr' H1 H2]; subst.
    assert (x' = x) as -> by exact (recorded_fun _ _ _ _ _ _ Hr' Hr). by rewrite (IH1 _ H1), (IH2 _ H2).
Qed.
Lemma path_vector_det e c fs i l l' : path_vector cs e c fs i l -> path_vector cs e c fs i l' -> l' = l.
Proof.
  intros H. revert l'. induction H as [c i l Hc|c f k fs i x l Hr Hx Hv IH]; intros l' H'; inversion H' as [? ? ? Hc'|? ? k' ? ? x' l1 Hr' Hx' Hv']; subst.
  - by eapply (proj1 (class_vector_det e)).
  - assert (k' = k) as -> by exact (refers_fun cs _ _ _ _ Hr' Hr). assert (x' = x) as -> by exact (recorded_fun _ _ _ _ _ _ Hx' Hx). by rewrite (IH _ Hv').
Qed.
Lemma field_vector_det e q l l' : is_Some (fields !! q) -> last l = last l' -> relation_vector s e q l -> relation_vector s e q l' -> l' = l.
Proof.
  intros [path Hq] Hlast H H'. destruct (wf_paths s WF q _ Hq) as (fs & ks & z & v & j & ps & Hqs & Ha). pose proof Hqs as [Hq1 Hp]. destruct fs as [|f fs].
  - destruct (vector_record _ _ _ _ Hq1 H) as [i Hi]. destruct (vector_record _ _ _ _ Hq1 H') as [i' Hi'].
    rewrite (class_vector_last _ _ _ _ Hi), (class_vector_last _ _ _ _ Hi') in Hlast. injection Hlast as <-. by eapply (proj1 (class_vector_det e)).
  - inversion Hp as [|? ? k ? ks' ? Hr Hp']; subst.
    destruct (vector_chain e q [] f fs [] rc ks' z v l Hqs eq_refl H) as [i Hi]. destruct (vector_chain e q [] f fs [] rc ks' z v l' Hqs eq_refl H') as [i' Hi'].
    rewrite (path_vector_last _ _ _ _ _ Hi), (path_vector_last _ _ _ _ _ Hi') in Hlast. injection Hlast as <-. by eapply path_vector_det.
Qed.
End Vectors.
