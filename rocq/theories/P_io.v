(** Encodings and observation files: proofs. *)
From Coq Require Import String Ascii.
From stdpp Require Import gmap strings list sorting.
From Coq Require Import ZArith Lia.
From Verif Require Import M_base M_dist M_crp M_domain M_relation M_noisy M_irm M_text M_io M_parse M_schema S_parse S_schema S_irm S_io P_base P_parse P_text P_schema.
Local Open Scope nat_scope.

Lemma at_throws {A} (o : option A) : at_ o = Throws <-> o = None.
Proof. by destruct o. Qed.

(** ** calculate_encoding *)
Lemma enc_domains_f ds : forall st d, es_f (foldl enc_domain st ds) !! d = if decide (d ∈ ds) then Some ∅ else es_f st !! d.
Proof.
  induction ds as [|a ds IH]; intros st d; cbn [foldl]; [by rewrite decide_False by apply not_elem_of_nil|].
  rewrite IH. cbn [enc_domain es_f es_r es_count]. destruct (decide (d ∈ ds)) as [Hin|Hn].
  - rewrite decide_True by by right. done.
  - destruct (decide (d = a)) as [->|Hne].
    + rewrite lookup_insert, decide_True by by left. done.
    + rewrite lookup_insert_ne by done. rewrite decide_False; [done|]. by intros [?|?]%elem_of_cons.
Qed.
Lemma enc_domains_r ds : forall st d, es_r (foldl enc_domain st ds) !! d = if decide (d ∈ ds) then Some ∅ else es_r st !! d.
Proof.
  induction ds as [|a ds IH]; intros st d; cbn [foldl]; [by rewrite decide_False by apply not_elem_of_nil|].
  rewrite IH. cbn [enc_domain es_f es_r es_count]. destruct (decide (d ∈ ds)) as [Hin|Hn].
  - rewrite decide_True by by right. done.
  - destruct (decide (d = a)) as [->|Hne].
    + rewrite lookup_insert, decide_True by by left. done.
    + rewrite lookup_insert_ne by done. rewrite decide_False; [done|]. by intros [?|?]%elem_of_cons.
Qed.
Lemma enc_domains_c ds : forall st d, es_count (foldl enc_domain st ds) !! d = if decide (d ∈ ds) then Some 0%Z else es_count st !! d.
Proof.
  induction ds as [|a ds IH]; intros st d; cbn [foldl]; [by rewrite decide_False by apply not_elem_of_nil|].
  rewrite IH. cbn [enc_domain es_f es_r es_count]. destruct (decide (d ∈ ds)) as [Hin|Hn].
  - rewrite decide_True by by right. done.
  - destruct (decide (d = a)) as [->|Hne].
    + rewrite lookup_insert, decide_True by by left. done.
    + rewrite lookup_insert_ne by done. rewrite decide_False; [done|]. by intros [?|?]%elem_of_cons.
Qed.

(** The state after naming the pairs in [P]. *)
Definition enc_inv (Ds : string -> Prop) (P : string -> string -> Prop) (st : enc_state) : Prop :=
  forall d, match es_f st !! d with
    | None => ~ Ds d /\ es_r st !! d = None
    | Some fd => Ds d /\ exists rd, es_r st !! d = Some rd /\ es_count st !! d = Some (Z.of_nat (size fd)) /\ numbering (P d) fd rd
    end.

Lemma numbering_empty P : (forall x, ~ P x) -> numbering P ∅ ∅.
Proof.
  intros HP. split; [|split].
  - intros x. rewrite lookup_empty. split; [by intros []|]. intros Hx. by destruct (HP x).
  - intros x c. by rewrite !lookup_empty.
  - intros c. rewrite lookup_empty, map_size_empty. split; [by intros []|simpl; lia].
Qed.

Lemma enc_init_inv schema : enc_inv (declared_domain schema) (fun _ _ => False) (enc_init schema).
Proof.
  unfold enc_init. set (g := fun st rel => foldl enc_domain st (default [] (schema !! rel))).
  assert (forall rels st, let st' := foldl g st rels in
    forall d, ((exists rel, rel ∈ rels /\ d ∈ default [] (schema !! rel)) ->
       es_f st' !! d = Some ∅ /\ es_r st' !! d = Some ∅ /\ es_count st' !! d = Some 0%Z) /\
     (~ (exists rel, rel ∈ rels /\ d ∈ default [] (schema !! rel)) ->
       es_f st' !! d = es_f st !! d /\ es_r st' !! d = es_r st !! d /\ es_count st' !! d = es_count st !! d)) as Hloop.
  { induction rels as [|a rels IH]; intros st st' d; simpl in st'.
    - split; [|done]. intros (rel & H & _). by apply elem_of_nil in H.
    - destruct (IH (g st a) d) as [IH1 IH2]. fold st' in IH1, IH2. split.
      + intros (rel & Hrel & Hd). destruct (decide (Exists (fun rel => d ∈ default [] (schema !! rel)) rels)) as [He|Hne].
        * apply IH1. apply Exists_exists in He as (y & ? & ?). eauto.
        * destruct IH2 as (-> & -> & ->).
          { intros (y & Hy & Hdy). apply Hne, Exists_exists. eauto. }
          assert (rel = a) as ->.
          { apply elem_of_cons in Hrel as [->|Hrel]; [done|]. exfalso. apply Hne, Exists_exists. eauto. }
          unfold g. rewrite enc_domains_f, enc_domains_r, enc_domains_c. by rewrite !decide_True by done.
      + intros Hno. destruct IH2 as (-> & -> & ->).
        { intros (y & Hy & Hdy). apply Hno. exists y. split; [by right|done]. }
        assert (d ∉ default [] (schema !! a)) as Hnd.
        { intros Hd. apply Hno. exists a. split; [by left|done]. }
        unfold g. rewrite enc_domains_f, enc_domains_r, enc_domains_c. by rewrite !decide_False by done. }
  intros d. destruct (Hloop (sorted_names schema) (EncState ∅ ∅ ∅) d) as [H1 H2]. cbv zeta in H1, H2.
  destruct (decide (Exists (fun rel => d ∈ default [] (schema !! rel)) (sorted_names schema))) as [He|Hne].
  - apply Exists_exists in He as (rel & Hrel & Hd). destruct H1 as (-> & -> & ->); [eauto|].
    split.
    { destruct (schema !! rel) as [ds|] eqn:Hs; simpl in Hd; [|by apply elem_of_nil in Hd]. by exists rel, ds. }
    exists ∅. split_and!; [done|by rewrite map_size_empty|]. apply numbering_empty. by intros x [].
  - assert (~ (exists rel, rel ∈ sorted_names schema /\ d ∈ default [] (schema !! rel))) as Hno.
    { intros (y & Hy & Hdy). apply Hne, Exists_exists. eauto. }
    destruct (H2 Hno) as (-> & -> & _). simpl. rewrite !lookup_empty. split; [|done].
    intros (rel & ds & Hs & Hd). apply Hno. exists rel. rewrite Hs. split; [|done].
    unfold sorted_names. rewrite merge_sort_Permutation. apply elem_of_elements, elem_of_dom. eauto.
Qed.

Lemma enc_inv_ext Ds (P Q : string -> string -> Prop) st : (forall d x, P d x <-> Q d x) -> enc_inv Ds P st -> enc_inv Ds Q st.
Proof.
  intros HPQ H d. specialize (H d). destruct (es_f st !! d) as [fd|]; [|done].
  destruct H as (Hd & rd & ? & ? & HN & ?). split; [done|]. exists rd. split_and!; [done|done|]. split; [|done].
  intros x. by rewrite HN.
Qed.

Lemma numbering_add P fd rd x : numbering P fd rd -> fd !! x = None ->
  numbering (fun y => P y \/ y = x) (<[x := Z.of_nat (size fd)]> fd) (<[Z.of_nat (size fd) := x]> rd).
Proof.
  intros (HP & Hinv & Hr) Hx.
  assert (rd !! Z.of_nat (size fd) = None) as Hnew.
  { destruct (rd !! _) eqn:E; [|done]. assert (is_Some (rd !! Z.of_nat (size fd))) as H%Hr by eauto. lia. }
  split; [|split].
  - intros y. destruct (decide (y = x)) as [->|Hne].
    + rewrite lookup_insert. split; [by right|eauto].
    + rewrite lookup_insert_ne by done. rewrite HP. tauto.
  - intros y c. destruct (decide (y = x)) as [->|Hne], (decide (c = Z.of_nat (size fd))) as [->|Hc].
    + by rewrite !lookup_insert.
    + rewrite lookup_insert, lookup_insert_ne by done. split; [congruence|]. intros H%Hinv. congruence.
    + rewrite lookup_insert, lookup_insert_ne by done. split; [|congruence]. intros H%Hinv. congruence.
    + rewrite !lookup_insert_ne by done. apply Hinv.
  - intros c. rewrite map_size_insert_None by done. destruct (decide (c = Z.of_nat (size fd))) as [->|Hc].
    + rewrite lookup_insert. split; [lia|eauto].
    + rewrite lookup_insert_ne by done. rewrite Hr. lia.
Qed.

Lemma enc_item_spec Ds P st d x : enc_inv Ds P st ->
  (Ds d -> exists st', enc_item st d x = Ok st') /\
  (~ Ds d -> enc_item st d x = Throws) /\
  (forall st', enc_item st d x = Ok st' -> enc_inv Ds (fun d' y => P d' y \/ (d' = d /\ y = x)) st').
Proof.
  intros Hst. pose proof (Hst d) as Hd. unfold enc_item.
  destruct (es_f st !! d) as [fd|] eqn:Hf; simpl.
  2:{ destruct Hd as [HD _]. split_and!; [done|done|done]. }
  destruct Hd as (HD & rd & Hrd & Hc & HN). destruct (bool_decide (x ∈ dom fd)) eqn:Hx.
  - apply bool_decide_eq_true in Hx. split_and!; [eauto|done|]. intros st' [= <-]. eapply enc_inv_ext; [|exact Hst].
    intros d' y. split; [by left|]. intros [?|[-> ->]]; [done|]. apply (proj1 HN), elem_of_dom. done.
  - apply bool_decide_eq_false in Hx. apply not_elem_of_dom in Hx. split_and!; [eauto|done|]. intros st' [= <-]. rewrite Hc, Hrd. simpl.
    intros d'. simpl. destruct (decide (d' = d)) as [->|Hne].
    + rewrite lookup_insert. split; [done|]. exists (<[Z.of_nat (size fd) := x]> rd). rewrite !lookup_insert.
      split_and!; [done| |].
      { rewrite map_size_insert_None by done. f_equal. lia. }
      pose proof (numbering_add (P d) fd rd x HN Hx) as H. destruct H as (H1 & H2 & H3). split; [|done].
      intros y. rewrite H1. tauto.
    + rewrite !lookup_insert_ne by done. pose proof (Hst d') as Hd'. destruct (es_f st !! d') as [fd'|]; [|done].
      destruct Hd' as (? & rd' & ? & ? & HN' & ?). split; [done|]. exists rd'. split_and!; [done|done|]. split; [|done].
      intros y. rewrite HN'. naive_solver.
Qed.

Definition at_positions (ds items : list string) (d x : string) : Prop := exists i, ds !! i = Some d /\ items !! i = Some x.

Lemma enc_items_spec Ds items : forall P st ds, enc_inv Ds P st -> Forall Ds ds ->
  (length items <= length ds -> exists st', enc_items st ds items = Ok st') /\
  (~ length items <= length ds -> enc_items st ds items = Throws) /\
  (forall st', enc_items st ds items = Ok st' -> enc_inv Ds (fun d x => P d x \/ at_positions ds items d x) st').
Proof.
  induction items as [|x items IH]; intros P st ds Hst HD; simpl.
  { split_and!; [eauto|lia|]. intros st' [= <-]. eapply enc_inv_ext; [|exact Hst]. intros d y. split; [by left|].
    intros [?|(i & _ & H)]; [done|]. by rewrite lookup_nil in H. }
  destruct ds as [|d ds]; simpl. { split_and!; [lia|done|done]. }
  apply Forall_cons in HD as [Hd HD].
  destruct (enc_item_spec Ds P st d x Hst) as (Hok & _ & Hinv). destruct (Hok Hd) as [st1 H1]. rewrite H1. simpl.
  pose proof (Hinv st1 H1) as Hst1. destruct (IH _ st1 ds Hst1 HD) as (A & B & C). split_and!.
  - intros. apply A. lia.
  - intros. apply B. lia.
  - intros st' H. eapply enc_inv_ext; [|exact (C st' H)]. intros d' y. split.
    + intros [[?|[-> ->]]|(i & ? & ?)]; [by left|right; by exists 0|right; by exists (S i)].
    + intros [?|([|i] & Hi & Hj)]; [by left; left| |right; by exists i]. simpl in Hi, Hj. left; right. split; congruence.
Qed.

Definition pairs_of (schema : gmap string (list string)) (rel : string) (l : list observation) (d x : string) : Prop :=
  exists items v ds, (items, v) ∈ l /\ schema !! rel = Some ds /\ at_positions ds items d x.
Definition fits (schema : gmap string (list string)) (rel : string) (l : list observation) : Prop :=
  forall items v, (items, v) ∈ l -> exists ds, schema !! rel = Some ds /\ length items <= length ds.

Lemma enc_list_spec schema rel l : forall P st, enc_inv (declared_domain schema) P st ->
  let run := foldM (fun st (x : observation) => let* ds := at_ (schema !! rel) in enc_items st ds x.1) st l in
  (fits schema rel l -> exists st', run = Ok st') /\
  (~ fits schema rel l -> run = Throws) /\
  (forall st', run = Ok st' -> enc_inv (declared_domain schema) (fun d x => P d x \/ pairs_of schema rel l d x) st').
Proof.
  induction l as [|[items v] l IH]; intros P st Hst; cbv zeta; cbn [foldM].
  { split_and!; [eauto|..].
    - intros H. exfalso. apply H. intros ?? Hin. by apply elem_of_nil in Hin.
    - intros st' [= <-]. eapply enc_inv_ext; [|exact Hst]. intros d x. split; [by left|].
      intros [?|(? & ? & ? & Hin & _)]; [done|]. by apply elem_of_nil in Hin. }
  destruct (schema !! rel) as [ds|] eqn:Hs; simpl.
  2:{ split_and!; [|done|done]. intros H. destruct (H items v) as (? & ? & _); [by left|congruence]. }
  assert (Forall (declared_domain schema) ds) as HD.
  { apply Forall_forall. intros d Hd. exists rel, ds. done. }
  destruct (enc_items_spec _ items P st ds Hst HD) as (A & B & C).
  assert (fits schema rel ((items, v) :: l) <-> length items <= length ds /\ fits schema rel l) as Hfit.
  { split.
    - intros H. split.
      + destruct (H items v) as (ds' & Hs' & Hl); [by left|]. rewrite Hs in Hs'. by injection Hs' as <-.
      + intros i' v' Hin. apply (H i' v'). by right.
    - intros [H1 H2] i' v' [[= -> ->]|Hin]%elem_of_cons; [by exists ds|eauto]. }
  destruct (decide (length items <= length ds)) as [Hl|Hl].
  - destruct (A Hl) as [st1 H1]. rewrite H1. simpl. pose proof (C st1 H1) as Hst1. destruct (IH _ st1 Hst1) as (A' & B' & C').
    cbv zeta in A', B', C'. try rewrite Hs in A', B', C'. rewrite Hfit. split_and!.
    + intros [_ ?]. by apply A'.
    + intros H. apply B'. tauto.
    + intros st' H. eapply enc_inv_ext; [|exact (C' st' H)]. intros d x. split.
      * intros [[?|?]|(i' & v' & ds' & Hin & ? & ?)]; [by left| |].
        -- right. exists items, v, ds. split_and!; [by left|done|done].
        -- right. exists i', v', ds'. split_and!; [by right|done|done].
      * intros [?|(i' & v' & ds' & Hin & Hs' & ?)]; [by left; left|]. apply elem_of_cons in Hin as [[= -> ->]|Hin].
        -- rewrite Hs in Hs'. injection Hs' as <-. by left; right.
        -- right. by exists i', v', ds'.
  - rewrite (B Hl). simpl. rewrite Hfit. split_and!; [tauto|done|done].
Qed.

Lemma enc_relations_spec schema obs rels : forall P st, enc_inv (declared_domain schema) P st ->
  let ok := forall rel, rel ∈ rels -> fits schema rel (default [] (obs !! rel)) in
  (ok -> exists st', foldM (enc_relation schema obs) st rels = Ok st') /\
  (~ ok -> foldM (enc_relation schema obs) st rels = Throws) /\
  (forall st', foldM (enc_relation schema obs) st rels = Ok st' ->
     enc_inv (declared_domain schema) (fun d x => P d x \/ exists rel, rel ∈ rels /\ pairs_of schema rel (default [] (obs !! rel)) d x) st').
Proof.
  induction rels as [|a rels IH]; intros P st Hst; cbv zeta; cbn [foldM].
  { split_and!; [eauto| |].
    - intros H. exfalso. apply H. intros ? Hin. by apply elem_of_nil in Hin.
    - intros st' [= <-]. eapply enc_inv_ext; [|exact Hst]. intros d x. split; [by left|].
      intros [?|(? & Hin & _)]; [done|]. by apply elem_of_nil in Hin. }
  destruct (enc_list_spec schema a (default [] (obs !! a)) P st Hst) as (A & B & C). cbv zeta in A, B, C.
  fold (enc_relation schema obs st a) in A, B, C.
  assert (fits schema a (default [] (obs !! a)) \/ ~ fits schema a (default [] (obs !! a))) as Hdec.
  { set (p := fun x : observation => match schema !! a with Some ds => length x.1 <= length ds | None => False end).
    assert (forall x, Decision (p x)) by (intros x; unfold p; destruct (schema !! a); apply _).
    destruct (decide (Forall p (default [] (obs !! a)))) as [HF|HF]; [left|right].
    - intros items v Hin. pose proof (proj1 (Forall_forall _ _) HF _ Hin) as Hp. unfold p in Hp. destruct (schema !! a); [|done]. eauto.
    - intros Hf. apply HF, Forall_forall. intros [items v] Hin. destruct (Hf items v Hin) as (ds & Hs & Hl). unfold p. by rewrite Hs. }
  destruct Hdec as [Hf|Hf].
  - destruct (A Hf) as [st1 H1]. rewrite H1. simpl. pose proof (C st1 H1) as Hst1. destruct (IH _ st1 Hst1) as (A' & B' & C'). split_and!.
    + intros H. apply A'. intros rel Hr. apply H. by right.
    + intros H. apply B'. intros H'. apply H. intros rel [->|Hr]%elem_of_cons; [done|by apply H'].
    + intros st' H. eapply enc_inv_ext; [|exact (C' st' H)]. intros d x. split.
      * intros [[?|?]|(rel & ? & ?)]; [by left| |].
        -- right. exists a. split; [by left|done].
        -- right. exists rel. split; [by right|done].
      * intros [?|(rel & Hin & ?)]; [by left; left|]. apply elem_of_cons in Hin as [->|Hin]; [by left; right|]. right. eauto.
  - rewrite (B Hf). simpl. split_and!; [|done|done]. intros H. exfalso. apply Hf, H. by left.
Qed.

Lemma in_o_names o (s : gset string) x : orders_ok o -> x ∈ o_names o s <-> x ∈ s.
Proof. intros (_ & _ & H & _). by rewrite (H s), elem_of_elements. Qed.

Lemma calculate_encoding_spec o schema obs : orders_ok o ->
  (readable schema obs -> exists E, calculate_encoding o schema obs = Ok E) /\
  (~ readable schema obs -> calculate_encoding o schema obs = Throws) /\
  (forall E, calculate_encoding o schema obs = Ok E -> forall d,
     match enc_f E !! d with
     | None => ~ declared_domain schema d /\ enc_r E !! d = None
     | Some f => declared_domain schema d /\ exists r, enc_r E !! d = Some r /\ numbering (occurs schema obs d) f r
     end).
Proof.
  intros Ho. unfold calculate_encoding.
  destruct (enc_relations_spec schema obs (o_names o (dom obs)) _ _ (enc_init_inv schema)) as (A & B & C). cbv zeta in A, B, C.
  assert ((forall rel, rel ∈ o_names o (dom obs) -> fits schema rel (default [] (obs !! rel))) <-> readable schema obs) as Hr.
  { split.
    - intros H rel l items v Hl Hin. apply (H rel) with v; [|by rewrite Hl]. apply in_o_names; [done|]. apply elem_of_dom. eauto.
    - intros H rel _ items v Hin. destruct (obs !! rel) as [l|] eqn:Hl; [by eapply H|]. by apply elem_of_nil in Hin. }
  rewrite Hr in A, B. split_and!.
  - intros H. destruct (A H) as [st ->]. simpl. eauto.
  - intros H. by rewrite (B H).
  - intros E H. apply obind_Ok in H as (st & Hst & [= <-]). simpl. intros d. pose proof (C st Hst d) as Hd. cbv beta in Hd.
    destruct (es_f st !! d) as [f|]; [|done]. destruct Hd as (? & r & ? & _ & HN & ?). split; [done|]. exists r. split; [done|].
    split; [|done]. intros x. rewrite HN. split.
    + intros [[]|(rel & _ & items & v & ds & Hin & Hs & i & ? & ?)]. destruct (obs !! rel) as [l|] eqn:Hl; [|by apply elem_of_nil in Hin].
      exists rel, l, items, v, ds, i. done.
    + intros (rel & l & items & v & ds & i & Hl & Hin & Hs & ? & ?). right. exists rel. split.
      * apply in_o_names; [done|]. apply elem_of_dom. eauto.
      * exists items, v, ds. rewrite Hl. split_and!; [done|done|by exists i].
Qed.

(** ** encode_observations *)
Definition numbered_in (E : encoding) (d x : string) : Prop :=
  exists f r c, enc_f E !! d = Some f /\ enc_r E !! d = Some r /\ f !! x = Some c /\ r !! c = Some x.

Lemma encode_items_ok E items : forall ds, length items <= length ds ->
  (forall d x, at_positions ds items d x -> numbered_in E d x) ->
  exists es, encode_items (enc_f E) ds items = Ok es /\ stands_for (enc_r E) ds es items.
Proof.
  induction items as [|x items IH]; intros ds Hl HN; simpl.
  { exists []. split; [done|]. split; [done|]. intros i y H. by rewrite lookup_nil in H. }
  destruct ds as [|d ds]; simpl in *; [lia|].
  destruct (HN d x) as (f & r & c & Hf & Hr & Hc & Hx); [by exists 0|]. rewrite Hf. simpl. rewrite Hc. simpl.
  destruct (IH ds) as (es & Hes & Hl' & Hst); [lia| |].
  { intros d' y (i & ? & ?). apply HN. by exists (S i). }
  rewrite Hes. simpl. exists (c :: es). split; [done|]. split; [simpl; congruence|].
  intros [|i] y Hy; simpl in Hy.
  - injection Hy as <-. exists d, c, r. done.
  - destruct (Hst i y Hy) as (d' & e & m & ? & ? & ? & ?). exists d', e, m. done.
Qed.

Definition encodes (r : gmap string (gmap Z string)) (ds : list string) (y : items_t * string) (x : observation) : Prop :=
  y.2 = x.2 /\ stands_for r ds y.1 x.1.

Lemma push_lookup {A} (m : gmap string (list A)) k x k' :
  push m k x !! k' = if decide (k' = k) then Some (default [] (m !! k) ++ [x]) else m !! k'.
Proof. unfold push. destruct (decide (k' = k)) as [->|Hne]; [by rewrite lookup_insert|by rewrite lookup_insert_ne]. Qed.

Lemma encode_list_ok E ds rel l : forall acc : encoded,
  (forall x, x ∈ l -> length x.1 <= length ds /\ forall d y, at_positions ds x.1 d y -> numbered_in E d y) ->
  exists acc' l', foldM (fun acc (x : observation) => let* es := encode_items (enc_f E) ds x.1 in Ok (push acc rel (es, x.2))) acc l = Ok acc' /\
    Forall2 (encodes (enc_r E) ds) l' l /\
    (forall rel', rel' <> rel -> acc' !! rel' = acc !! rel') /\
    acc' !! rel = match l with [] => acc !! rel | _ => Some (default [] (acc !! rel) ++ l') end.
Proof.
  induction l as [|x l IH]; intros acc H; cbn [foldM].
  { exists acc, []. done. }
  destruct (H x) as [Hl HN]; [by left|]. destruct (encode_items_ok E x.1 ds Hl HN) as (es & -> & Hst). cbn [obind].
  destruct (IH (push acc rel (es, x.2))) as (acc' & l' & Hrun & HF & Hother & Hrel).
  { intros y Hy. apply H. by right. }
  exists acc', ((es, x.2) :: l'). split; [done|]. split; [constructor; [split; done|done]|]. split.
  - intros rel' Hne. rewrite Hother by done. rewrite push_lookup. by rewrite decide_False.
  - rewrite Hrel, push_lookup, decide_True by done. destruct l as [|x' l].
    + inversion HF; subst. done.
    + cbn [default]. simpl. by rewrite <- app_assoc.
Qed.

Definition encoded_as (E : encoding) (domains_of : string -> option (list string)) (eobs : encoded) (obs : observations) (rel : string) : Prop :=
  match obs !! rel with
  | None | Some [] => eobs !! rel = None
  | Some l => exists ds l', domains_of rel = Some ds /\ eobs !! rel = Some l' /\ Forall2 (encodes (enc_r E) ds) l' l
  end.

Lemma encode_relations_ok E domains_of obs rels : NoDup rels -> forall acc : encoded,
  (forall rel, rel ∈ rels -> acc !! rel = None) ->
  (forall rel, rel ∈ rels -> exists ds, domains_of rel = Some ds /\ forall x, x ∈ default [] (obs !! rel) ->
     length x.1 <= length ds /\ forall d y, at_positions ds x.1 d y -> numbered_in E d y) ->
  exists eobs, foldM (encode_relation (enc_f E) domains_of obs) acc rels = Ok eobs /\
    (forall rel, rel ∉ rels -> eobs !! rel = acc !! rel) /\
    (forall rel, rel ∈ rels -> encoded_as E domains_of eobs obs rel).
Proof.
  induction 1 as [|a rels Ha Hnd IH]; intros acc Hacc H; cbn [foldM].
  { exists acc. split_and!; [done|done|]. intros rel Hin. by apply elem_of_nil in Hin. }
  destruct (H a) as (ds & Hds & Hx); [by left|]. unfold encode_relation at 1. rewrite Hds. cbn [at_ obind].
  destruct (encode_list_ok E ds a (default [] (obs !! a)) acc Hx) as (acc1 & l' & -> & HF & Ho & Hr). cbn [obind].
  destruct (IH acc1) as (eobs & Hrun & Hnot & Hin).
  { intros rel Hrel. rewrite Ho by (by intros ->). apply Hacc. by right. }
  { intros rel Hrel. apply H. by right. }
  exists eobs. split_and!; [done| |].
  - intros rel Hrel. rewrite Hnot by (intros ?; apply Hrel; by right). apply Ho. intros ->. apply Hrel. by left.
  - intros rel [->|Hrel]%elem_of_cons; [|by apply Hin]. unfold encoded_as. rewrite (Hnot a Ha), Hr.
    rewrite (Hacc a) by by left. destruct (obs !! a) as [[|x l]|]; [done| |done]. exists ds, l'. done.
Qed.

Lemma o_names_nodup o (s : gset string) : orders_ok o -> NoDup (o_names o s).
Proof. intros (_ & _ & H & _). rewrite (H s). apply NoDup_elements. Qed.

Lemma encode_observations_ok o E domains_of obs : orders_ok o ->
  (forall rel l, obs !! rel = Some l -> exists ds, domains_of rel = Some ds /\ forall x, x ∈ l ->
     length x.1 <= length ds /\ forall d y, at_positions ds x.1 d y -> numbered_in E d y) ->
  exists eobs, encode_observations o (enc_f E) domains_of obs = Ok eobs /\ forall rel, encoded_as E domains_of eobs obs rel.
Proof.
  intros Ho H. destruct (encode_relations_ok E domains_of obs (o_names o (dom obs)) (o_names_nodup o _ Ho) ∅) as (eobs & Hrun & Hnot & Hin).
  - intros. apply lookup_empty.
  - intros rel Hrel. apply in_o_names in Hrel; [|done]. apply elem_of_dom in Hrel as [l Hl]. rewrite Hl. eauto.
  - exists eobs. split; [done|]. intros rel. destruct (decide (rel ∈ o_names o (dom obs))) as [Hd|Hd]; [by apply Hin|].
    unfold encoded_as. rewrite (Hnot rel Hd), lookup_empty.
    rewrite in_o_names in Hd by done. apply not_elem_of_dom in Hd. by rewrite Hd.
Qed.

(** ** Observation files *)
Lemma separated_cons2 c (a b : text) l : separated_by c (a :: b :: l) = a ++ c :: separated_by c (b :: l).
Proof. done. Qed.

Lemma getlines_separated d l : Forall (fun f => d ∉ f) l -> l <> [] -> last l <> Some [] -> getlines d (separated_by d l) = l.
Proof.
  induction 1 as [|a l Ha Hl IH]; [done|]. intros _ Hlast. destruct l as [|b l].
  - simpl. rewrite app_nil_r. apply getlines_one; [done|]. intros ->. by apply Hlast.
  - rewrite separated_cons2, getlines_app by done. f_equal. by apply IH.
Qed.
Lemma getlines_separated_end d l : Forall (fun f => d ∉ f) l -> l <> [] -> getlines d (separated_by d l ++ [d]) = l.
Proof.
  induction 1 as [|a l Ha Hl IH]; [done|]. intros _. destruct l as [|b l].
  - simpl. rewrite app_nil_r. by rewrite getlines_app.
  - rewrite separated_cons2, <- app_assoc. simpl ((_ :: _) ++ _). rewrite getlines_app by done. f_equal. by apply IH.
Qed.
Lemma getlines_inv d l : forall acc, d ∉ acc -> l <> [] \/ acc <> [] ->
  let ps := getlines_from d acc l in ps <> [] /\
  ((rev acc ++ l = separated_by d ps /\ last ps <> Some []) \/ rev acc ++ l = separated_by d ps ++ [d]).
Proof.
  induction l as [|c l IH]; intros acc Hacc Hne; cbn [getlines_from]; cbv zeta.
  - destruct acc as [|x acc]; [by destruct Hne|]. split; [done|]. left. simpl. split; [by rewrite app_nil_r|].
    intros [= H]. by destruct (rev acc).
  - destruct (ceqb c d) eqn:E.
    + apply ceqb_true in E as ->. split; [done|]. destruct l as [|c' l].
      * right. simpl. by rewrite app_nil_r.
      * destruct (IH []) as (Hps & Hc); [by apply not_elem_of_nil|by left|]. cbv zeta in Hps, Hc. cbn [rev app] in Hc.
        generalize dependent (getlines_from d [] (c' :: l)). intros ps Hps Hc.
        destruct ps as [|p ps]; [done|]. rewrite separated_cons2. destruct Hc as [[Hc Hl]|Hc].
        -- left. rewrite <- Hc. done.
        -- right. rewrite <- app_assoc. cbn [app]. by rewrite <- Hc.
    + apply ceqb_false in E. destruct (IH (c :: acc)) as (Hps & Hc).
      * apply not_elem_of_cons. split; [congruence|done].
      * by right.
      * cbv zeta in Hc. split; [done|]. simpl in Hc. rewrite <- app_assoc in Hc. simpl in Hc. exact Hc.
Qed.

Lemma map_txt_str l : map txt (map str l) = l.
Proof. rewrite map_map. induction l; simpl; [done|]. by rewrite txt_str, IHl. Qed.
Lemma map_str_txt l : map str (map txt l) = l.
Proof. rewrite map_map. induction l; simpl; [done|]. by rewrite str_txt, IHl. Qed.
Lemma last_map {A B} (f : A -> B) l : last (map f l) = f <$> last l.
Proof. change (map f l) with (f <$> l). apply fmap_last. Qed.
Lemma txt_nil s : txt s = [] <-> s = ""%string.
Proof. by destruct s. Qed.

Lemma last_fields (v rel : string) (items : list string) : items <> [] -> last (txt v :: txt rel :: map txt items) = txt <$> last items.
Proof.
  intros Hne. destruct items as [|a items]; [done|]. change (last (map txt (a :: items)) = txt <$> last (a :: items)). apply last_map.
Qed.

Lemma obs_line_reads schema obs line y : reads_line schema line y -> obs_line schema obs line = Ok (push obs y.1 y.2).
Proof.
  destruct y as [rel [items v]]. intros (Hrel & Hne & Hf & Hline); cbn [fst snd] in *.
  assert (getlines comma line = txt v :: txt rel :: map txt items) as Hg.
  { destruct Hline as [[-> Hlast] | ->]; unfold obs_text; cbn [fst snd].
    - apply getlines_separated; [done|done|]. rewrite last_fields by done. intros H. apply Hlast.
      destruct (last items) as [y|]; [|done]. simpl in H. injection H as H. apply txt_nil in H. by subst.
    - by apply getlines_separated_end. }
  unfold obs_line. rewrite Hg, str_txt, bool_decide_eq_true_2 by done.
  rewrite bool_decide_eq_true_2 by (by destruct items). cbn [assert_ obind]. by rewrite map_str_txt, str_txt.
Qed.
Lemma obs_line_inv schema obs line obs' : obs_line schema obs line = Ok obs' ->
  exists y, reads_line schema line y /\ obs' = push obs y.1 y.2.
Proof.
  unfold obs_line. destruct (getlines comma line) as [|v [|rel items]] eqn:Hg; [done|done|].
  destruct (bool_decide (str rel ∈ schema)) eqn:Hs; [|done]. apply bool_decide_eq_true in Hs. intros H.
  apply obind_Ok in H as ([] & Ha%assert_Ok & [= <-]). apply bool_decide_eq_true in Ha.
  exists (str rel, (map str items, str v)). split; [|done]. unfold reads_line; cbn [fst snd].
  assert (line <> []) as Hln. { intros ->. done. }
  pose proof (getlines_no_delim comma line) as Hnd. rewrite Hg in Hnd.
  destruct (getlines_inv comma line []) as (_ & Hc); [by apply not_elem_of_nil|by left|]. cbv zeta in Hc. fold (getlines comma line) in Hc.
  rewrite Hg in Hc. simpl (rev [] ++ line) in Hc. unfold obs_text; cbn [fst snd]. rewrite !txt_str, map_txt_str.
  split; [done|]. split; [by destruct items|]. split; [done|]. destruct Hc as [[Hc Hl]|Hc]; [left|by right].
  split; [done|]. intros Hlast. apply Hl. rewrite last_map in Hlast. change (last (v :: rel :: items)) with (last (rel :: items)).
  destruct items as [|i items]; [done|]. change (last (rel :: i :: items)) with (last (i :: items)).
  destruct (last (i :: items)) as [z|]; [|done]. simpl in Hlast. injection Hlast as Hz. f_equal.
  rewrite <- (txt_str z). by rewrite Hz.
Qed.

Lemma load_lines_iff schema lines : forall obs obs',
  foldM (obs_line schema) obs lines = Ok obs' <->
  exists ys, Forall2 (reads_line schema) lines ys /\ obs' = foldl (fun m y => push m y.1 y.2) obs ys.
Proof.
  induction lines as [|line lines IH]; intros obs obs'; cbn [foldM].
  - split.
    + intros [= <-]. by exists [].
    + intros (ys & HF & ->). by inversion HF.
  - split.
    + intros H. apply obind_Ok in H as (obs1 & H1 & H2). apply obs_line_inv in H1 as (y & Hy & ->).
      apply IH in H2 as (ys & HF & ->). exists (y :: ys). split; [by constructor|done].
    + intros (ys & HF & ->). inversion HF as [|? y ? ys' Hy HF']; subst. rewrite (obs_line_reads _ _ _ _ Hy). cbn [obind foldl].
      apply IH. eauto.
Qed.
Lemma foldl_push_lookup (ys : list (string * observation)) : forall (m : observations) rel,
  foldl (fun m y => push m y.1 y.2) m ys !! rel =
  match observed_of ys rel with [] => m !! rel | l => Some (default [] (m !! rel) ++ l) end.
Proof.
  induction ys as [|[k x] ys IH]; intros m rel; cbn [foldl]; [done|]. rewrite IH. unfold observed_of. rewrite push_lookup. cbn [fst snd].
  rewrite filter_cons. cbn [fst]. destruct (decide (k = rel)) as [->|Hne].
  - rewrite (decide_True (P := rel = rel)) by done. cbn [map snd default]. simpl. destruct (map snd _) as [|z l] eqn:E; [done|].
    by rewrite <- app_assoc.
  - rewrite (decide_False (P := rel = k)) by congruence. done.
Qed.

Lemma file_lines_getlines file ls : file_lines file ls -> getlines newline file = ls.
Proof.
  intros [Hnl [->|(ls' & t & -> & Hne & ->)]]; [by apply getlines_lines_of|].
  apply Forall_app in Hnl as [H1 H2]. apply Forall_cons in H2 as [Ht _].
  induction H1 as [|l ls Hl Hls IH]; simpl; [by apply getlines_one|].
  unfold lines_of in *. cbn [map concat]. rewrite <- !app_assoc. cbn [app]. rewrite getlines_app by done. by rewrite IH.
Qed.
Lemma file_lines_exists file : file_lines file (getlines newline file).
Proof.
  split; [apply getlines_no_delim|]. destruct file as [|c file]; [by left|].
  destruct (getlines_inv newline (c :: file) []) as (Hne & Hc); [by apply not_elem_of_nil|by left|]. cbv zeta in Hne, Hc.
  fold (getlines newline (c :: file)) in Hne, Hc. set (ls := getlines newline (c :: file)) in *. simpl (rev [] ++ _) in Hc.
  assert (forall l : list text, l <> [] -> separated_by newline l ++ [newline] = lines_of l) as Hsep.
  { clear. induction l as [|a l IH]; [done|]. intros _. destruct l as [|b l]; [by unfold lines_of; simpl; rewrite !app_nil_r|].
    rewrite separated_cons2, <- app_assoc. cbn [app]. rewrite IH by done. unfold lines_of. cbn [map concat]. by rewrite <- !app_assoc. }
  destruct Hc as [[Hc Hl]|Hc]; [right|left; by rewrite Hc, Hsep].
  destruct (exists_last Hne) as (ls' & t & Ht). exists ls', t. split; [done|]. split.
  - intros ->. apply Hl. rewrite Ht. by rewrite last_snoc.
  - rewrite Hc, Ht. clear. induction ls' as [|a l IH]; [simpl; by rewrite app_nil_r|]. cbn [app].
    destruct (l ++ [t]) as [|b l2] eqn:E; [by destruct l|]. rewrite separated_cons2, IH. unfold lines_of. cbn [map concat].
    rewrite <- !app_assoc. done.
Qed.

(** ** write_observations *)
Lemma write_entities_ok r items : forall ds es, stands_for r ds es items ->
  write_entities r ds es = Ok (concat (map (cons comma) (map txt items))).
Proof.
  induction items as [|x items IH]; intros ds es [Hl H]; destruct es as [|e es]; try done.
  destruct (H 0 x) as (d & e' & m & Hd & He & Hm & Hx); [done|]. destruct ds as [|d' ds]; [done|].
  simpl in Hd, He. injection Hd as ->. injection He as ->. simpl. unfold write_entity. rewrite Hm. cbn [at_ obind]. rewrite Hx. cbn [obind].
  rewrite (IH ds es); [done|]. split; [simpl in Hl; lia|]. intros i y Hi. destruct (H (S i) y) as (d1 & e1 & m1 & ? & ? & ? & ?); [done|]. eauto 10.
Qed.

Lemma write_list_ok r rel ds l' l : Forall2 (encodes r ds) l' l -> forall out,
  foldM (write_one r rel ds) out l' = Ok (out ++ lines_of (map (obs_text rel) l)).
Proof.
  induction 1 as [|y x l' l [Hv Hst] HF IH]; intros out; cbn [foldM]; [by rewrite app_nil_r|].
  unfold write_one at 1. rewrite (write_entities_ok r x.1 ds y.1 Hst). cbn [obind]. rewrite IH. f_equal.
  unfold lines_of. cbn [map concat]. rewrite Hv. unfold obs_text, separated_by. cbn [map concat]. by rewrite <- !app_assoc.
Qed.
Lemma write_relations_ok E domains_of eobs obs rels : (forall rel, rel ∈ rels -> encoded_as E domains_of eobs obs rel) ->
  (forall rel, rel ∈ rels -> is_Some (eobs !! rel)) -> forall out,
  foldM (write_relation (enc_r E) domains_of eobs) out rels =
    Ok (out ++ lines_of (concat (map (fun rel => map (obs_text rel) (default [] (obs !! rel))) rels))).
Proof.
  induction rels as [|a rels IH]; intros He Hs out; cbn [foldM]; [by rewrite app_nil_r|].
  pose proof (He a (elem_of_list_here _ _)) as Ha. destruct (Hs a (elem_of_list_here _ _)) as [l' Hl']. unfold encoded_as in Ha.
  unfold write_relation at 1. cbn [map concat]. destruct (obs !! a) as [[|x l]|]; [congruence| |congruence].
  destruct Ha as (ds & l0 & -> & Hl0 & HF). cbn [at_ obind]. rewrite Hl0. cbn [default].
  rewrite (write_list_ok _ _ _ _ _ HF). cbn [obind]. rewrite IH.
  - f_equal. unfold lines_of. rewrite map_app, concat_app. by rewrite <- app_assoc.
  - intros rel Hrel. apply He. by right.
  - intros rel Hrel. apply Hs. by right.
Qed.

Definition recs_of (obs : observations) (rels : list string) : list (string * observation) :=
  concat (map (fun rel => map (pair rel) (default [] (obs !! rel))) rels).
Lemma recs_text obs rels : concat (map (fun rel => map (obs_text rel) (default [] (obs !! rel))) rels) = map (fun y => obs_text y.1 y.2) (recs_of obs rels).
Proof.
  unfold recs_of. induction rels as [|a rels IH]; simpl; [done|]. rewrite map_app, IH. f_equal. rewrite map_map. done.
Qed.
Lemma observed_of_app a b rel : observed_of (a ++ b) rel = observed_of a rel ++ observed_of b rel.
Proof. unfold observed_of. by rewrite filter_app, map_app. Qed.
Lemma observed_of_pairs (l : list observation) k rel : observed_of (map (pair k) l) rel = if decide (k = rel) then l else [].
Proof.
  unfold observed_of. induction l as [|x l IH]; simpl; [by destruct (decide _)|]. rewrite filter_cons. cbn [fst].
  destruct (decide (k = rel)) as [->|Hne]; [|done]. cbn [map snd]. by f_equal.
Qed.
Lemma recs_observed obs rels rel : NoDup rels -> observed_of (recs_of obs rels) rel = if decide (rel ∈ rels) then default [] (obs !! rel) else [].
Proof.
  induction 1 as [|a rels Ha Hnd IH].
  - rewrite decide_False by apply not_elem_of_nil. done.
  - unfold recs_of. cbn [map concat]. fold (recs_of obs rels). rewrite observed_of_app, IH, observed_of_pairs.
    destruct (decide (a = rel)) as [->|Hne].
    + rewrite (decide_False (P := rel ∈ rels)) by done. rewrite decide_True by by left. by rewrite app_nil_r.
    + destruct (decide (rel ∈ rels)) as [Hin|Hn].
      * rewrite decide_True by by right. done.
      * rewrite decide_False; [done|]. intros [->|?]%elem_of_cons; done.
Qed.
Lemma in_recs obs rels rel x : (rel, x) ∈ recs_of obs rels <-> rel ∈ rels /\ x ∈ default [] (obs !! rel).
Proof.
  unfold recs_of. induction rels as [|a rels IH]; cbn [map concat].
  - split; [by intros ?%elem_of_nil|]. intros [?%elem_of_nil _]. done.
  - rewrite elem_of_app, IH, elem_of_cons. split.
    + intros [(y & [= -> ->] & ?)%elem_of_list_fmap|[? ?]]; [auto|]. auto.
    + intros [[->|?] ?]; [|auto]. left. apply elem_of_list_fmap. eauto.
Qed.

Lemma reads_written schema rel x : rel ∈ schema -> writable_obs rel x -> reads_line schema (obs_text rel x) (rel, x).
Proof.
  intros Hrel ([Hr _] & [Hv _] & Hi & y & Hlast & Hy). unfold reads_line. cbn [fst snd]. split; [done|]. split.
  { intros E. by rewrite E in Hlast. }
  split.
  - apply Forall_cons. split; [done|]. apply Forall_cons. split; [done|]. apply Forall_map. eapply Forall_impl; [exact Hi|]. by intros z [? _].
  - left. split; [done|]. rewrite Hlast. congruence.
Qed.
Lemma obs_text_no_newline rel x : writable_obs rel x -> newline ∉ obs_text rel x.
Proof.
  intros ([_ Hr] & [_ Hv] & Hi & _). unfold obs_text, separated_by. cbn [map concat].
  assert (newline <> comma) as Hc by done.
  assert (newline ∉ concat (map (cons comma) (map txt x.1))) as Hrest.
  { induction Hi as [|z l [_ Hz] _ IH]; cbn [map concat]; [by apply not_elem_of_nil|].
    intros [[?|?]%elem_of_cons|?]%elem_of_app; done. }
  intros [?|[[?|?]%elem_of_cons|?]%elem_of_app]%elem_of_app; done.
Qed.

Lemma write_then_load o E domains_of eobs obs schema : orders_ok o ->
  (forall rel, encoded_as E domains_of eobs obs rel) ->
  (forall rel l x, obs !! rel = Some l -> x ∈ l -> rel ∈ schema /\ writable_obs rel x) ->
  exists file, write_observations o (enc_r E) domains_of eobs = Ok file /\
  exists obs', load_observations schema file = Ok obs' /\ same_observations obs' obs.
Proof.
  intros Ho He Hw. unfold write_observations. set (rels := o_names o (dom eobs)).
  assert (forall rel, rel ∈ rels <-> is_Some (eobs !! rel)) as Hrels.
  { intros rel. unfold rels. rewrite in_o_names by done. apply elem_of_dom. }
  rewrite (write_relations_ok E domains_of eobs obs rels) by (intros; apply Hrels || apply He; done). simpl ([] ++ _).
  eexists. split; [done|]. rewrite recs_text. set (ys := recs_of obs rels).
  assert (forall y, y ∈ ys -> y.1 ∈ schema /\ writable_obs y.1 y.2) as Hys.
  { intros [rel x] [Hrel Hx]%in_recs. cbn [fst snd]. destruct (obs !! rel) as [l|] eqn:Hl; [by eapply Hw|by apply elem_of_nil in Hx]. }
  exists (foldl (fun m y => push m y.1 y.2) ∅ ys). split.
  - unfold load_observations. rewrite getlines_lines_of.
    2:{ apply Forall_map, Forall_forall. intros y Hy. apply obs_text_no_newline. by apply Hys. }
    apply load_lines_iff. exists ys. split; [|done]. apply Forall2_fmap_l, Forall_Forall2_diag, Forall_forall.
    intros y Hy. simpl. destruct (Hys y Hy). destruct y. by apply reads_written.
  - intros rel. rewrite foldl_push_lookup, lookup_empty. cbn [default]. unfold ys. rewrite recs_observed by by apply o_names_nodup.
    destruct (decide (rel ∈ rels)) as [Hin|Hn].
    + destruct (obs !! rel) as [[|x l]|]; done.
    + pose proof (He rel) as H. unfold encoded_as in H. destruct (obs !! rel) as [[|x l]|]; [done| |done].
      destruct H as (? & ? & _ & Hl & _). exfalso. apply Hn, Hrels. eauto.
Qed.
