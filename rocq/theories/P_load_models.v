(** Loading observations into an IRM or a HIRM. *)
From Coq Require Import String Ascii.
From stdpp Require Import gmap strings list.
From Coq Require Import ZArith Lia.
From Verif Require Import M_base M_dist M_crp M_domain M_relation M_noisy M_irm M_hirm M_text M_io
  S_crp S_crp_state S_relation S_irm S_hirm S_io S_load P_base P_any P_hirm_move P_hirm_history P_hirm_trans P_io P_load.
Local Open Scope nat_scope.

(** ** The map from noisy relations to bases *)
Definition listed (b2n : gmap string (list string)) (b n : string) : Prop := exists ns, b2n !! b = Some ns /\ n ∈ ns.

Lemma add_base_spec {A} b2n (obs : gmap string A) base l : forall acc acc',
  foldM (add_noisy b2n obs base) acc l = Ok acc' ->
  (forall n, acc' !! n = if decide (n ∈ l) then Some base else acc !! n) /\
  (forall n, n ∈ l -> n ∈ dom b2n \/ n ∈ dom obs).
Proof.
  induction l as [|x l IH]; intros acc acc'; cbn [foldM].
  { intros [= <-]. split; intros n; [by rewrite decide_False by apply not_elem_of_nil|by intros ?%elem_of_nil]. }
  intros H. apply obind_Ok in H as (acc1 & H1 & H2). unfold add_noisy in H1.
  destruct (bool_decide _ || bool_decide _) eqn:E; [|done]. injection H1 as <-. destruct (IH _ _ H2) as [A1 A2]. split.
  - intros n. rewrite A1. destruct (decide (n ∈ l)) as [Hin|Hn].
    + by rewrite decide_True by by right.
    + destruct (decide (n = x)) as [->|Hne].
      * rewrite lookup_insert. by rewrite decide_True by by left.
      * rewrite lookup_insert_ne by done. rewrite decide_False; [done|]. by intros [?|?]%elem_of_cons.
  - intros n [->|Hin]%elem_of_cons; [|by apply A2]. apply orb_true_iff in E as [E|E]; apply bool_decide_eq_true in E; auto.
Qed.
Lemma add_base_ok {A} b2n (obs : gmap string A) base l : (forall n, n ∈ l -> n ∈ dom b2n \/ n ∈ dom obs) -> forall acc,
  exists acc', foldM (add_noisy b2n obs base) acc l = Ok acc'.
Proof.
  induction l as [|x l IH]; intros H acc; cbn [foldM]; [eauto|]. unfold add_noisy at 1.
  assert (bool_decide (x ∈ dom b2n) || bool_decide (x ∈ dom obs) = true) as ->.
  { apply orb_true_iff. destruct (H x); [by left|left|right]; by apply bool_decide_eq_true. }
  cbn [obind]. apply IH. intros n Hn. apply H. by right.
Qed.

Lemma n2b_loop_spec {A} b2n (obs : gmap string A) bases : forall acc n2b,
  foldM (add_base b2n obs) acc bases = Ok n2b ->
  (forall n b, n2b !! n = Some b -> acc !! n = Some b \/ (b ∈ bases /\ listed b2n b n)) /\
  (forall n, (exists b, b ∈ bases /\ listed b2n b n) \/ is_Some (acc !! n) -> is_Some (n2b !! n)) /\
  (forall n b, b ∈ bases -> listed b2n b n -> n ∈ dom b2n \/ n ∈ dom obs).
Proof.
  induction bases as [|x bases IH]; intros acc n2b; cbn [foldM].
  { intros [= <-]. split_and!; [by left| |by intros ?? ?%elem_of_nil]. intros n [(b & Hb & _)|?]; [by apply elem_of_nil in Hb|done]. }
  intros H. apply obind_Ok in H as (acc1 & H1 & H2). unfold add_base in H1. destruct (add_base_spec _ _ _ _ _ _ H1) as [A1 A2].
  assert (forall n, n ∈ default [] (b2n !! x) <-> listed b2n x n) as HL.
  { intros n. unfold listed. destruct (b2n !! x) as [ns|]; simpl.
    - split; [eauto|]. by intros (? & [= <-] & ?).
    - split; [by intros ?%elem_of_nil|]. by intros (? & ? & _). }
  destruct (IH _ _ H2) as (B1 & B2 & B3). split_and!.
  - intros n b Hn. apply B1 in Hn as [Hn|[Hb Hl]]; [|right; split; [by right|done]].
    rewrite A1 in Hn. destruct (decide _) as [Hin|_]; [|by left]. injection Hn as <-. right. split; [by left|by apply HL].
  - intros n Hn. apply B2. destruct Hn as [(b & [->|Hb]%elem_of_cons & Hl)|Hacc].
    + right. rewrite A1, decide_True by by apply HL. eauto.
    + left. eauto.
    + right. rewrite A1. destruct (decide _); eauto.
  - intros n b [->|Hb]%elem_of_cons Hl; [apply A2; by apply HL|by eapply B3].
Qed.

Definition one_base (b2n : gmap string (list string)) : Prop := forall b b' n, listed b2n b n -> listed b2n b' n -> b = b'.

Lemma noisy_to_base_spec {A} o b2n (obs : gmap string A) n2b : orders_ok o -> one_base b2n ->
  noisy_to_base o b2n obs = Ok n2b ->
  (forall n b, n2b !! n = Some b <-> listed b2n b n) /\ (forall n b, listed b2n b n -> n ∈ dom b2n \/ n ∈ dom obs).
Proof.
  intros Ho H1 H. destruct (n2b_loop_spec _ _ _ _ _ H) as (A1 & A2 & A3).
  assert (forall b n, listed b2n b n -> b ∈ o_names o (dom b2n)) as Hin.
  { intros b n (ns & Hb & _). apply in_o_names; [done|]. apply elem_of_dom. eauto. }
  split; [|eauto]. intros n b. split.
  - intros Hn. destruct (A1 n b Hn) as [E|[_ E]]; [by rewrite lookup_empty in E|done].
  - intros Hl. destruct (A2 n) as [b' Hb']; [left; eauto|]. destruct (A1 n b' Hb') as [E|[_ E]]; [by rewrite lookup_empty in E|].
    by rewrite (H1 b b' n Hl E).
Qed.
Lemma noisy_to_base_exits {A} o b2n (obs : gmap string A) : orders_ok o ->
  (noisy_to_base o b2n obs = Exits \/ exists n2b, noisy_to_base o b2n obs = Ok n2b) /\
  ((exists n2b, noisy_to_base o b2n obs = Ok n2b) <-> forall n b, listed b2n b n -> n ∈ dom b2n \/ n ∈ dom obs).
Proof.
  intros Ho. unfold noisy_to_base.
  assert (forall bases acc, let x := foldM (add_base b2n obs) acc bases in x = Exits \/ exists n2b, x = Ok n2b) as Hx.
  { assert (forall base l acc, let x := foldM (add_noisy b2n obs base) acc l in x = Exits \/ exists n2b, x = Ok n2b) as Hi.
    { intros base. induction l as [|y l IH]; intros acc; cbn [foldM]; cbv zeta; [eauto|]. unfold add_noisy at 1 3.
      destruct (_ || _); cbn [obind]; [apply IH|by left]. }
    induction bases as [|y bases IH]; intros acc; cbn [foldM]; cbv zeta; [eauto|].
    destruct (Hi y (default [] (b2n !! y)) acc) as [E|[n2b E]]; unfold add_base at 1 3; rewrite E; cbn [obind]; [by left|apply IH]. }
  split; [apply Hx|]. split.
  - intros [n2b H] n b Hl. destruct (n2b_loop_spec _ _ _ _ _ H) as (_ & _ & A3). eapply A3; [|exact Hl].
    apply in_o_names; [done|]. destruct Hl as (ns & Hb & _). apply elem_of_dom. eauto.
  - intros HL. assert (forall bases acc, exists n2b, foldM (add_base b2n obs) acc bases = Ok n2b) as Hok; [|apply Hok].
    induction bases as [|y bases IH]; intros acc; cbn [foldM]; [eauto|]. unfold add_base at 1.
    destruct (add_base_ok b2n obs y (default [] (b2n !! y))) with (acc := acc) as [acc' ->]; cbn [obind]; [|apply IH].
    intros n Hn. apply (HL n y). destruct (b2n !! y) as [ns|] eqn:E; [|by apply elem_of_nil in Hn]. exists ns. done.
Qed.

(** ** The generic theorem *)
Section Generic.
Context {M V : Type} (X : model_ops M V) (parse : string -> string -> outcome V).
Context (I0 : M -> Prop) (dat : M -> string -> option (gmap items_t V)) (ar : string -> nat) (L : ops_laws X I0 dat ar).

Lemma incorporate_encoded_spec o obs m r m' r' base : orders_ok o -> I0 m ->
  (forall n b, listed (op_b2n X m) b n <-> base n = Some b) ->
  incorporate_encoded X parse o m obs r = Ok (m', r') ->
  I0 m' /\ (forall n, loaded parse obs base ar n (dat m n) (dat m' n)) /\
  (forall n b, base n = Some b -> is_Some (obs !! n) \/ is_Some (op_b2n X m !! n)).
Proof.
  intros Ho HI Hbase H. unfold incorporate_encoded in H. apply obind_Ok in H as (n2b & Hn2b & H).
  apply obind_Ok in H as ([[[m1 ri] comp] r1] & Hloop & [= <- <-]).
  assert (one_base (op_b2n X m)) as H1.
  { intros b b' n Hb Hb'. apply Hbase in Hb, Hb'. congruence. }
  destruct (noisy_to_base_spec o _ _ _ Ho H1 Hn2b) as [Hn Hleaf].
  assert (load_inv parse I0 dat ar obs n2b m m (relation_items obs) ∅) as Hinv.
  { assert (forall n, relation_items obs !! n = (fun l => list_to_set (map fst l)) <$> obs !! n) as Hri.
    { intros n. unfold relation_items. rewrite !lookup_fmap. by destruct (obs !! n). }
    split; [done| | | | |].
    - intros n items. rewrite Hri. destruct (obs !! n) as [l|]; simpl; [|by intros ?%elem_of_empty]. by rewrite elem_of_list_to_set.
    - intros n l items Hl Hin. rewrite Hri, Hl. simpl. by apply elem_of_list_to_set.
    - intros n l _. left. split; [apply not_elem_of_empty|done].
    - intros n _. destruct (dat m n) as [d|]; [|done]. exists d. split_and!; [done|done|]. by left.
    - intros n l items Hin. by apply elem_of_empty in Hin. }
  destruct (loop_spec X parse I0 dat ar L o Ho obs n2b m _ _ _ _ _ _ _ _ _ _ Hinv Hloop) as (Hinv' & _ & Hall).
  split; [apply Hinv'|]. split.
  - assert (forall n, n2b !! n = base n) as Heq.
    { intros n. apply option_eq. intros b. by rewrite Hn, Hbase. }
    intros n. pose proof (loaded_all parse I0 dat ar obs n2b m m1 ri comp Hinv') as Hl. specialize (Hl ltac:(intros k Hk; apply Hall, in_o_names; [done|by apply elem_of_dom]) n).
    unfold loaded in *. destruct (obs !! n); [done|]. destruct (dat m n); [|done]. destruct Hl as (d' & ? & ? & Hd). exists d'.
    split_and!; [done|done|]. intros items. rewrite Hd.
    assert (forall k i, needed obs (fun n => n2b !! n) ar k i <-> needed obs base ar k i) as Hnd.
    { intros k i. split; (induction 1 as [k b l i v Hb Hl Hi|k b i Hb Hk _ IH];
        [eapply (needed_observed _ _ _ _ _ l i v); [|exact Hl|exact Hi]|eapply needed_latent; [|exact Hk|exact IH]]);
        cbv beta in *; congruence. }
    by rewrite Hnd.
  - intros n b Hb. destruct (Hleaf n b) as [Hd|Hd]; [by apply Hbase| |left; by apply elem_of_dom].
    right. by apply elem_of_dom.
Qed.
End Generic.

(** ** The two models *)
Section Models.
Context {V : Type}.
Implicit Types a : any_rel V.

Definition keys_agree a : Prop :=
  match a with AClean _ _ => True | ANoisy n => dom (n_data n) = dom (r_data (n_rel n)) end.
Lemma any_holds_keys ar A a : any_holds ar A a -> keys_agree a.
Proof. destruct a as [D rel|n]; [done|]. intros (_ & Hd & _). simpl. by rewrite Hd, dom_fmap_L. Qed.

Lemma incorporate_items_data (D : Dist V) W (rel : relation D) items r W' rel' z r' :
  incorporate_items D W rel items r = Ok (W', rel', z, r') -> r_data rel !! items = None /\ r_data rel' = r_data rel /\ r_doms rel' = r_doms rel.
Proof.
  unfold incorporate_items. intros H. apply obind_Ok in H as ([] & Hn%assert_Ok & H). apply bool_decide_eq_true, not_elem_of_dom in Hn.
  apply obind_Ok in H as ([[W1 idx] r1] & _ & H). apply obind_Ok in H as (z1 & _ & H).
  destruct (r_clusters _ !! z1); [by injection H as <- <- <- <-|]. destruct (make_new_distribution _ _ _) as [c r2].
  by injection H as <- <- <- <-.
Qed.
Lemma rel_incorporate_data {U} (D : Dist U) W (rel : relation D) items v r W' rel' r' :
  rel_incorporate D W rel items v r = Ok (W', rel', r') ->
  r_data rel !! items = None /\ r_data rel' = <[items := v]> (r_data rel) /\ r_doms rel' = r_doms rel.
Proof.
  unfold rel_incorporate. intros H. apply obind_Ok in H as ([[[W1 rel1] z] r1] & H1 & H). apply obind_Ok in H as (c & _ & H).
  apply obind_Ok in H as (c' & _ & H). injection H as <- <- <-. cbn.
  unfold incorporate_items in H1. apply obind_Ok in H1 as ([] & Hn%assert_Ok & H1). apply bool_decide_eq_true, not_elem_of_dom in Hn.
  apply obind_Ok in H1 as ([[W2 idx] r2] & _ & H1). apply obind_Ok in H1 as (z1 & _ & H1). split; [done|].
  destruct (r_clusters _ !! z1); [by injection H1 as <- <- <- <-|]. destruct (make_new_distribution _ _ _) as [c0 r3].
  by injection H1 as <- <- <- <-.
Qed.
Lemma any_incorporate_data lk W a items v r W' a' r' : keys_agree a -> any_incorporate lk W a items v r = Ok (W', a', r') ->
  any_data a !! items = None /\ any_data a' = <[items := v]> (any_data a) /\ any_doms a' = any_doms a /\ any_base a' = any_base a /\ keys_agree a'.
Proof.
  intros Hk. destruct a as [D rel|n]; cbn [any_incorporate]; intros H.
  - apply obind_Ok in H as ([[W1 rel1] r1] & H1 & [= <- <- <-]). destruct (rel_incorporate_data _ _ _ _ _ _ _ _ _ H1) as (? & ? & ?).
    cbn. split_and!; done.
  - apply obind_Ok in H as (b & _ & H). apply obind_Ok in H as ([[W1 n1] r1] & H1 & [= <- <- <-]). unfold noisy_incorporate in H1.
    apply obind_Ok in H1 as (bi & _ & H1). apply obind_Ok in H1 as (bv & _ & H1). apply obind_Ok in H1 as ([[W2 rel] r2] & H1 & [= <- <- <-]).
    destruct (rel_incorporate_data _ _ _ _ _ _ _ _ _ H1) as (Hn & Hd & Hdoms). cbn [n_set any_data any_doms any_base n_data n_rel n_base n_em keys_agree] in *.
    split_and!; [|done|done|done|].
    + apply not_elem_of_dom. rewrite Hk. by apply not_elem_of_dom.
    + rewrite Hd, !dom_insert_L. by rewrite Hk.
Qed.
Lemma any_sample_data lk W a items r v a' r' : keys_agree a -> any_sample_at_items lk W a items r = Ok (v, a', r') ->
  any_data a' = any_data a /\ any_doms a' = any_doms a /\ any_base a' = any_base a /\ keys_agree a'.
Proof.
  intros Hk. destruct a as [D rel|n]; cbn [any_sample_at_items]; intros H.
  - apply obind_Ok in H as ([[v1 rel1] r1] & H1 & [= <- <- <-]). unfold sample_at_items in H1.
    apply obind_Ok in H1 as (b & _ & H1). destruct b.
    + apply obind_Ok in H1 as (z & _ & H1). apply obind_Ok in H1 as (c & _ & H1). apply obind_Ok in H1 as ([[v2 c'] r2] & _ & [= <- <- <-]). done.
    + destruct (make_new_distribution _ _ _) as [c r2]. apply obind_Ok in H1 as ([[v2 c'] r3] & _ & [= <- <- <-]). done.
  - apply obind_Ok in H as (b & _ & H). apply obind_Ok in H as ([v1 r1] & _ & [= <- <- <-]). done.
Qed.

(** A relation object is as declared. *)
Definition as_declared (schema : gmap string (t_rel V)) (n : string) a : Prop :=
  keys_agree a /\ exists ty, schema !! n = Some ty /\ any_doms a = t_domains ty /\ any_base a = t_base ty.
Definition base_in (schema : gmap string (t_rel V)) (n : string) : option string := ty ← schema !! n; t_base ty.
Definition base_arity (schema : gmap string (t_rel V)) (n : string) : nat :=
  match base_in schema n with Some b => match schema !! b with Some ty => length (t_domains ty) | None => 0 end | None => 0 end.

Lemma base_of_arity schema (lk : string -> option (any_rel V)) n a nz b :
  (forall k x, lk k = Some x -> as_declared schema k x) -> as_declared schema n a ->
  as_noisy a = Ok nz -> base_of lk nz = Ok b -> bv_arity b = base_arity schema n.
Proof.
  intros Hlk (_ & ty & Hty & _ & Hb) Hnz Hbase. destruct a as [D rel|n0]; [done|]. injection Hnz as ->. simpl in Hb.
  unfold base_of in Hbase. destruct (lk (n_base nz)) as [x|] eqn:Hx; [|done]. injection Hbase as <-. cbn [bv_arity view_of].
  destruct (Hlk _ _ Hx) as (_ & tyb & Htyb & Hd & _). unfold base_arity, base_in. rewrite Hty. simpl. rewrite <- Hb, Htyb. by rewrite Hd.
Qed.

Definition hirm_as_declared (schema : gmap string (t_rel V)) (h : hirm V) : Prop := forall n a, hirm_lookup h n = Some a -> as_declared schema n a.
Definition hirm_dat (h : hirm V) (n : string) : option (gmap items_t V) := any_data <$> hirm_lookup h n.

Lemma at_table h n tb ir a : relation_to_table h n = Ok tb -> h_irms h !! tb = Some ir -> i_rels ir !! n = Some a ->
  table_of h n = Some tb /\ hirm_lookup h n = Some a.
Proof. intros Ht Hir Ha. apply relation_to_table_Ok in Ht. split; [done|]. apply hirm_lookup_iff. eauto. Qed.
Lemma replaced_lookup h tb ir n (W : world) a' k : table_of h n = Some tb -> h_irms h !! tb = Some ir ->
  hirm_lookup (h_set_irms h (<[tb := i_set_rel (i_set_domains ir W) n a']> (h_irms h))) k =
  if decide (k = n) then Some a' else hirm_lookup h k.
Proof.
  intros Ht Hir. rewrite set_irm_lookup. cbn [i_set_rel i_set_domains i_rels]. destruct (decide (k = n)) as [->|Hne].
  - rewrite decide_True by done. apply lookup_insert.
  - destruct (decide _) as [Hk|Hk]; [|done]. rewrite lookup_insert_ne by done. apply option_eq. intros y. rewrite hirm_lookup_iff.
    split; [eauto|]. intros (tb' & ir' & ? & ? & ?). congruence.
Qed.

Lemma hirm_ops_laws schema : ops_laws hirm_ops (hirm_as_declared schema) hirm_dat (base_arity schema).
Proof.
  split.
  - intros h n items v r h' r' HI H. cbn [hirm_ops op_incorporate] in H. unfold hirm_incorporate in H.
    apply obind_Ok in H as (tb & Htb & H). apply obind_Ok in H as (ir & Hir%at_Ok & H). apply obind_Ok in H as ([ir' r1] & H & [= <- <-]).
    unfold irm_incorporate in H. apply obind_Ok in H as (a & Ha%at_Ok & H). apply obind_Ok in H as ([[W a'] r2] & H & [= <- <-]).
    destruct (at_table h n tb ir a Htb Hir Ha) as [Ht Hl]. destruct (HI n a Hl) as (Hk & ty & Hty & Hds & Hb).
    destruct (any_incorporate_data _ _ _ _ _ _ _ _ _ Hk H) as (Hn & Hd & Hdoms & Hbase & Hk').
    assert (forall k, hirm_lookup (h_set_irms h (<[tb := i_set_rel (i_set_domains ir W) n a']> (h_irms h))) k =
      if decide (k = n) then Some a' else hirm_lookup h k) as Hlk by (intros k; by apply replaced_lookup).
    split.
    + intros k x. rewrite Hlk. destruct (decide (k = n)) as [->|Hne]; [|by apply HI]. intros [= <-]. split; [done|]. exists ty.
      split_and!; [done|congruence|congruence].
    + exists (any_data a). unfold hirm_dat. rewrite Hl. split_and!; [done|done| |].
      * rewrite Hlk, decide_True by done. simpl. by rewrite Hd.
      * intros k Hne. by rewrite Hlk, decide_False.
  - intros h n items r v h' r' HI H. cbn [hirm_ops op_sample_at] in H. unfold hirm_sample_at in H.
    apply obind_Ok in H as (tb & Htb & H). apply obind_Ok in H as (ir & Hir%at_Ok & H). apply obind_Ok in H as (a & Ha%at_Ok & H).
    apply obind_Ok in H as ([[v1 a'] r1] & H & [= <- <- <-]). destruct (at_table h n tb ir a Htb Hir Ha) as [Ht Hl].
    destruct (HI n a Hl) as (Hk & ty & Hty & Hds & Hb). destruct (any_sample_data _ _ _ _ _ _ _ _ Hk H) as (Hd & Hdoms & Hbase & Hk').
    assert (forall k, hirm_lookup (h_set_irms h (<[tb := i_set_rel ir n a']> (h_irms h))) k = if decide (k = n) then Some a' else hirm_lookup h k) as Hlk.
    { intros k. rewrite <- (replaced_lookup h tb ir n (i_domains ir) a' k Ht Hir). by destruct ir. }
    split.
    + intros k x. rewrite Hlk. destruct (decide (k = n)) as [->|Hne]; [|by apply HI]. intros [= <-]. split; [done|]. exists ty.
      split_and!; [done|congruence|congruence].
    + intros k. unfold hirm_dat. rewrite Hlk. destruct (decide (k = n)) as [->|Hne]; [|done]. rewrite Hl. simpl. by rewrite Hd.
  - intros h n a HI H. cbn [hirm_ops op_get] in H. unfold hirm_dat. apply get_relation_Ok in H. by rewrite H.
  - intros h n a nz b HI H Hnz Hb. cbn [hirm_ops op_get op_lookup] in *. apply get_relation_Ok in H.
    eapply base_of_arity; [|by apply HI|exact Hnz|exact Hb]. exact HI.
Qed.

Definition irm_as_declared (schema : gmap string (t_rel V)) (ir : irm V) : Prop := forall n a, i_rels ir !! n = Some a -> as_declared schema n a.
Definition irm_dat (ir : irm V) (n : string) : option (gmap items_t V) := any_data <$> i_rels ir !! n.
Lemma irm_ops_laws schema : ops_laws irm_ops (irm_as_declared schema) irm_dat (base_arity schema).
Proof.
  split.
  - intros ir n items v r ir' r' HI H. cbn [irm_ops op_incorporate] in H. unfold irm_incorporate in H.
    apply obind_Ok in H as (a & Ha%at_Ok & H). apply obind_Ok in H as ([[W a'] r2] & H & [= <- <-]).
    destruct (HI n a Ha) as (Hk & ty & Hty & Hds & Hb).
    destruct (any_incorporate_data _ _ _ _ _ _ _ _ _ Hk H) as (Hn & Hd & Hdoms & Hbase & Hk'). split.
    + intros k x. cbn [i_set_rel i_set_domains i_rels]. destruct (decide (k = n)) as [->|Hne].
      * rewrite lookup_insert. intros [= <-]. split; [done|]. exists ty. split_and!; [done|congruence|congruence].
      * rewrite lookup_insert_ne by done. apply HI.
    + exists (any_data a). unfold irm_dat. cbn [i_set_rel i_set_domains i_rels]. rewrite Ha. split_and!; [done|done| |].
      * rewrite lookup_insert. simpl. by rewrite Hd.
      * intros k Hne. by rewrite lookup_insert_ne.
  - intros ir n items r v ir' r' HI H. cbn [irm_ops op_sample_at] in H. unfold irm_sample_at in H.
    apply obind_Ok in H as (a & Ha%at_Ok & H). apply obind_Ok in H as ([[v1 a'] r1] & H & [= <- <- <-]).
    destruct (HI n a Ha) as (Hk & ty & Hty & Hds & Hb). destruct (any_sample_data _ _ _ _ _ _ _ _ Hk H) as (Hd & Hdoms & Hbase & Hk'). split.
    + intros k x. cbn [i_set_rel i_rels]. destruct (decide (k = n)) as [->|Hne].
      * rewrite lookup_insert. intros [= <-]. split; [done|]. exists ty. split_and!; [done|congruence|congruence].
      * rewrite lookup_insert_ne by done. apply HI.
    + intros k. unfold irm_dat. cbn [i_set_rel i_rels]. destruct (decide (k = n)) as [->|Hne].
      * rewrite lookup_insert, Ha. simpl. by rewrite Hd.
      * by rewrite lookup_insert_ne.
  - intros ir n a HI H. cbn [irm_ops op_get] in H. unfold irm_dat. apply at_Ok in H. by rewrite H.
  - intros ir n a nz b HI H Hnz Hb. cbn [irm_ops op_get op_lookup] in *. apply at_Ok in H.
    eapply base_of_arity; [|by apply HI|exact Hnz|exact Hb]. exact HI.
Qed.

Lemma hirm_holds_declared (h : hirm V) (a : seating) : hirm_holds h a -> hirm_as_declared (h_schema h) h.
Proof.
  intros Hh n x Hx. destruct (hirm_lookup_declared h a n x Hh Hx) as (ty & Hty & Htx).
  apply hirm_lookup_iff in Hx as (tb & ir & Ht & Hir & Hrx). destruct (irm_at_holds h a tb ir Hh Hir) as [A HA].
  split; [eapply any_holds_keys, (ih_rels _ _ _ HA), Hrx|]. exists ty. split; [done|]. rewrite Htx. destruct x; done.
Qed.
Lemma irm_holds_declared ar (ir : irm V) A : irm_holds ar ir A -> irm_as_declared (i_schema ir) ir.
Proof.
  intros HA n x Hx. split; [eapply any_holds_keys, (ih_rels _ _ _ HA), Hx|]. pose proof (ih_schema _ _ _ HA n) as Hs. rewrite Hx in Hs.
  destruct (i_schema ir !! n) as [ty|]; [|done]. exists ty. split; [done|]. rewrite Hs. destruct x; done.
Qed.
End Models.

(** ** Loading keeps the model consistent *)
Section Consistent.
Context {V : Type}.
Implicit Types h : hirm V.

(** Drawing a value from the distribution leaves it as it was. *)
Definition draws_keep (D : Dist V) : Prop := forall s r v s' r', d_sample D s r = Ok (v, s', r') -> s' = s.
Definition schema_draws_keep (schema : gmap string (t_rel V)) : Prop :=
  forall name t, schema !! name = Some t -> match t with TClean _ _ D _ => draws_keep D | TNoisy _ _ _ _ _ => True end.

Lemma sample_at_items_keeps (D : Dist V) W (rel : relation D) items r v rel' r' : draws_keep D ->
  sample_at_items D W rel items r = Ok (v, rel', r') -> rel' = rel.
Proof.
  intros HD. unfold sample_at_items. intros H. apply obind_Ok in H as (b & _ & H). destruct b.
  - apply obind_Ok in H as (z & _ & H). apply obind_Ok in H as (c & Hc%at_Ok & H). apply obind_Ok in H as ([[v1 c'] r1] & Hs & [= <- <- <-]).
    apply HD in Hs as ->. rewrite insert_id by done. by destruct rel.
  - destruct (make_new_distribution _ _ _) as [c r1]. by apply obind_Ok in H as ([[v1 c'] r2] & _ & [= <- <- <-]).
Qed.

Lemma hirm_sample_at_keeps h a n items r v h' r' : hirm_holds h a -> schema_draws_keep (h_schema h) ->
  hirm_sample_at h n items r = Ok (v, h', r') -> h' = h.
Proof.
  intros Hh HD H. unfold hirm_sample_at in H. apply obind_Ok in H as (tb & Htb & H). apply obind_Ok in H as (ir & Hir%at_Ok & H).
  apply obind_Ok in H as (x & Hx%at_Ok & H). apply obind_Ok in H as ([[v1 x'] r1] & Hs & [= <- <- <-]).
  assert (x' = x) as ->.
  { destruct x as [D rel|nz]; cbn [any_sample_at_items] in Hs.
    - apply obind_Ok in Hs as ([[v2 rel'] r2] & Hs & [= <- <- <-]). f_equal.
      destruct (at_table h n tb ir _ Htb Hir Hx) as [_ Hl]. destruct (hirm_lookup_declared h a n _ Hh Hl) as (ty & Hty & Htx).
      eapply sample_at_items_keeps; [|done]. cbn in Htx. rewrite Htx in Hty. exact (HD _ _ Hty).
    - apply obind_Ok in Hs as (b & _ & Hs). by apply obind_Ok in Hs as ([v2 r2] & _ & [= <- <- <-]). }
  assert (i_set_rel ir n x = ir) as -> by (unfold i_set_rel; rewrite (insert_id _ _ _ Hx); by destruct ir).
  unfold h_set_irms. rewrite (insert_id _ _ _ Hir). by destruct h.
Qed.

Definition consistent_with h h' : Prop := (exists a, hirm_holds h' a) /\ same_directory h h' /\ h_crp h' = h_crp h.
Lemma hirm_ops_laws_consistent h : schema_draws_keep (h_schema h) ->
  ops_laws hirm_ops (consistent_with h) hirm_dat (base_arity (h_schema h)).
Proof.
  intros HD. pose proof (hirm_ops_laws (h_schema h)) as L.
  assert (forall h', consistent_with h h' -> hirm_as_declared (h_schema h) h') as Hdecl.
  { intros h' ([a Hh] & Hs & _). destruct Hs as (Hs & _). rewrite <- Hs. by eapply hirm_holds_declared. }
  split.
  - intros m n items v r m' r' HI H. destruct (l_inc _ _ _ _ L m n items v r m' r' (Hdecl _ HI) H) as [_ Hd]. split; [|done].
    destruct HI as ([a Hh] & Hs & Hc). destruct (proj1 (hirm_incorporate_spec m a n items v r Hh) _ _ H) as (Hh' & Hs' & Hc' & _).
    split_and!; [by exists a| |congruence]. clear -Hs Hs'. unfold same_directory in *. destruct Hs as (?&?&?&?), Hs' as (?&?&?&?). split_and!; congruence.
  - intros m n items r v m' r' HI H. destruct HI as ([a Hh] & Hs & Hc). cbn [hirm_ops op_sample_at] in H.
    apply (hirm_sample_at_keeps m a n items r v m' r' Hh) in H as ->; [|by destruct Hs as (-> & _)]. split; [|done]. split_and!; eauto.
  - intros m n x HI. apply (l_get _ _ _ _ L), Hdecl, HI.
  - intros m n x nz b HI. apply (l_base _ _ _ _ L), Hdecl, HI.
Qed.
End Consistent.

(** ** Calls made, whatever the model does with them *)
Section Logged.
Context {M V : Type} (X : model_ops M V) (parse : string -> string -> outcome V).
Notation entry := (string * items_t * V)%type.

(** The same model, also keeping the list of [incorporate] calls. *)
Definition logged : model_ops (M * list entry) V := ModelOps
  (fun m => op_domains X m.1) (fun m => op_b2n X m.1) (fun m => op_get X m.1) (fun m => op_lookup X m.1)
  (fun m n items v r => let* (m', r') := op_incorporate X m.1 n items v r in Ok ((m', m.2 ++ [(n, items, v)]), r'))
  (fun m n items r => let* (v, m', r') := op_sample_at X m.1 n items r in Ok (v, (m', m.2), r')).

Definition omap_ok {A B} (f : A -> B) (x : outcome A) : outcome B := let* a := x in Ok (f a).
Lemma foldM_sim {A S S'} (f : S -> A -> outcome S) (g : S' -> A -> outcome S') (e : S -> S') l :
  (forall s a, omap_ok e (f s a) = g (e s) a) -> forall s, omap_ok e (foldM f s l) = foldM g (e s) l.
Proof.
  intros H. induction l as [|a l IH]; intros s; cbn [foldM]; [done|]. rewrite <- H. unfold omap_ok in *.
  destruct (f s a); cbn [obind]; [apply IH|done..].
Qed.
Definition erase (st : (M * list entry) * gmap string (gset items_t) * gset string * rng) : M * gmap string (gset items_t) * gset string * rng :=
  let '(m, ri, c, r) := st in (m.1, ri, c, r).
Definition erase2 (st : (M * list entry) * rng) : M * rng := (st.1.1, st.2).

Lemma logged_relation fuel o obs n2b : forall name st,
  omap_ok erase (incorporate_relation logged parse fuel o obs n2b name st) = incorporate_relation X parse fuel o obs n2b name (erase st).
Proof.
  induction fuel as [|fuel IH]; intros name [[[m ri] comp] r]; cbn [incorporate_relation erase]; [done|].
  cbn [logged op_get]. destruct (op_get X m.1 name) as [a| | | | |]; cbn [obind]; try done.
  match goal with |- omap_ok erase (obind ?x ?k) = obind ?y ?k' => assert (omap_ok erase x = y) as Hrec end.
  { destruct (n2b !! name) as [base|]; [|done].
    match goal with |- omap_ok erase (obind ?x ?k) = obind ?y ?k' => assert (x = y) as -> by done; destruct y; cbn [obind]; try done end.
    apply IH. }
  match goal with |- omap_ok erase (obind ?x ?k) = obind ?y ?k' => rewrite <- Hrec; destruct x as [[[[m1 ri1] comp1] r1]| | | | |]; try done end.
  cbn [omap_ok obind erase].
  match goal with |- omap_ok erase (obind ?x ?k) = obind ?y ?k' => assert (omap_ok erase2 x = y) as Hinc end.
  { destruct (obs !! name) as [l|].
    - change (m1.1, r1) with (erase2 (m1, r1)). apply foldM_sim. intros [s r0] x. unfold incorporate_observed, erase2, omap_ok. cbn.
      destruct (parse name x.2) as [v| | | | |]; try done. cbn. by destruct (op_incorporate X s.1 name x.1 v r0) as [[]| | | | |].
    - destruct (ri1 !! name) as [s|]; cbn [at_ obind]; [|done].
      change (m1.1, r1) with (erase2 (m1, r1)). apply foldM_sim. intros [s0 r0] x. unfold incorporate_sampled, erase2, omap_ok. cbn.
      destruct (op_sample_at X s0.1 name x r0) as [[[v s1] r2]| | | | |]; try done. cbn.
      destruct (op_get X s1 name) as [a1| | | | |]; try done. cbn. destruct (bool_decide _); [done|].
      by destruct (op_incorporate X s1 name x v r2) as [[]| | | | |]. }
  rewrite <- Hinc. match goal with |- omap_ok erase (obind ?x ?k) = _ => destruct x as [[m2 r2]| | | | |]; done end.
Qed.

(** Keeping the list changes nothing else. *)
Lemma logged_transparent o m log obs r :
  (let* (ml, r') := incorporate_encoded logged parse o (m, log) obs r in Ok (ml.1, r')) = incorporate_encoded X parse o m obs r.
Proof.
  unfold incorporate_encoded. cbn [logged op_b2n fst]. destruct (noisy_to_base o (op_b2n X m) obs) as [n2b| | | | |]; cbn [obind]; try done.
  change (m, relation_items obs, ∅, r) with (erase (m, log, relation_items obs, ∅, r)).
  rewrite <- (foldM_sim (incorporate_next logged parse (S (size n2b)) o obs n2b) (incorporate_next X parse (S (size n2b)) o obs n2b) erase).
  - destruct (foldM _ _ _) as [[[[m1 ri1] c1] r1]| | | | |]; done.
  - intros [[[m1 ri1] c1] r1] n. unfold incorporate_next. cbn [erase]. destruct (bool_decide _); [done|]. apply logged_relation.
Qed.

(** The calls for one relation, in order. *)
Definition calls_for (log : list entry) (n : string) : list (items_t * V) :=
  map (fun e => (e.1.2, e.2)) (filter (fun e => e.1.1 = n) log).
Lemma calls_for_app a b n : calls_for (a ++ b) n = calls_for a n ++ calls_for b n.
Proof. unfold calls_for. by rewrite filter_app, map_app. Qed.
Lemma calls_for_one k items v n : calls_for [(k, items, v)] n = if decide (k = n) then [(items, v)] else [].
Proof. unfold calls_for. rewrite filter_cons. cbn. by destruct (decide (k = n)). Qed.

Lemma observed_log n l : forall m log r m' log' r',
  foldM (incorporate_observed logged parse n) ((m, log), r) l = Ok ((m', log'), r') ->
  exists vs, Forall2 (fun x v => parse n x.2 = Ok v) l vs /\ calls_for log' n = calls_for log n ++ zip (map fst l) vs /\
    forall k, k <> n -> calls_for log' k = calls_for log k.
Proof.
  induction l as [|x l IH]; intros m log r m' log' r'; cbn [foldM].
  { intros [= <- <- <-]. exists []. split_and!; [done|by rewrite app_nil_r|done]. }
  intros H. apply obind_Ok in H as ([[m1 log1] r1] & H1 & H2). unfold incorporate_observed in H1. apply obind_Ok in H1 as (v & Hv & H1).
  cbn in H1. apply obind_Ok in H1 as ([m2 r2] & _ & [= -> <- ->]).
  destruct (IH _ _ _ _ _ _ H2) as (vs & HF & Hn & Ho). exists (v :: vs). split; [by constructor|]. split.
  - rewrite Hn, calls_for_app, calls_for_one, decide_True by done. rewrite <- app_assoc. done.
  - intros k Hk. rewrite Ho by done. rewrite calls_for_app, calls_for_one, decide_False by congruence. by rewrite app_nil_r.
Qed.
Lemma sampled_log n l : forall m log r m' log' r',
  foldM (incorporate_sampled logged n) ((m, log), r) l = Ok ((m', log'), r') -> forall k, k <> n -> calls_for log' k = calls_for log k.
Proof.
  induction l as [|x l IH]; intros m log r m' log' r'; cbn [foldM].
  { by intros [= <- <- <-]. }
  intros H k Hk. apply obind_Ok in H as ([[m1 log1] r1] & H1 & H2). unfold incorporate_sampled in H1. cbn in H1.
  apply obind_Ok in H1 as ([[v [m2 log2]] r2] & Hs & H1). apply obind_Ok in Hs as ([[v0 m3] r3] & _ & [= <- <- <- <-]).
  apply obind_Ok in H1 as (a & _ & H1). rewrite (IH _ _ _ _ _ _ H2 k Hk). destruct (bool_decide _).
  - by injection H1 as -> -> ->.
  - apply obind_Ok in H1 as ([m4 r4] & _ & [= -> <- ->]). cbn. rewrite calls_for_app, calls_for_one, decide_False by congruence. by rewrite app_nil_r.
Qed.

Context (o : orders) (obs : encoded) (n2b : gmap string string).
Context (Hbase : forall n b, n2b !! n = Some b -> obs !! b = None).

Lemma relation_log fuel : forall n m log ri comp r m' log' ri' comp' r',
  incorporate_relation logged parse fuel o obs n2b n ((m, log), ri, comp, r) = Ok ((m', log'), ri', comp', r') ->
  (forall k, is_Some (obs !! k) -> k <> n -> calls_for log' k = calls_for log k) /\
  (forall k, is_Some (obs !! k) -> k ∈ comp' <-> k ∈ comp \/ k = n) /\
  (forall l, obs !! n = Some l -> exists vs, Forall2 (fun x v => parse n x.2 = Ok v) l vs /\ calls_for log' n = calls_for log n ++ zip (map fst l) vs).
Proof.
  induction fuel as [|fuel IH]; intros n m log ri comp r m' log' ri' comp' r'; cbn [incorporate_relation]; [done|].
  intros H. apply obind_Ok in H as (a & Ha & H). apply obind_Ok in H as ([[[[m1 log1] ri1] comp1] r1] & Hrec & H).
  apply obind_Ok in H as ([[m2 log2] r2] & Hinc & [= <- <- <- <- <-]).
  assert ((forall k, is_Some (obs !! k) -> calls_for log1 k = calls_for log k) /\ (forall k, is_Some (obs !! k) -> k ∈ comp1 <-> k ∈ comp)) as [Hl1 Hc1].
  { destruct (n2b !! n) as [base|] eqn:Hn; [|by injection Hrec as <- <- <- <- <-].
    apply obind_Ok in Hrec as (ri2 & _ & Hrec). destruct (IH _ _ _ _ _ _ _ _ _ _ _ Hrec) as (H1 & H2 & _).
    pose proof (Hbase n base Hn) as Hb. split.
    - intros k Hk. apply H1; [done|]. intros ->. rewrite Hb in Hk. by destruct Hk.
    - intros k Hk. rewrite H2 by done. split; [|by left]. intros [?| ->]; [done|]. rewrite Hb in Hk. by destruct Hk. }
  assert (forall k, is_Some (obs !! k) -> k ∈ {[n]} ∪ comp1 <-> k ∈ comp \/ k = n) as Hc2.
  { intros k Hk. rewrite elem_of_union, elem_of_singleton, Hc1 by done. tauto. }
  destruct (obs !! n) as [l|] eqn:Hn.
  - destruct (observed_log n l _ _ _ _ _ _ Hinc) as (vs & HF & H1 & H2). split_and!; [|done|].
    + intros k Hk Hne. by rewrite H2, Hl1.
    + intros l' [= <-]. exists vs. split; [done|]. by rewrite H1, Hl1.
  - apply obind_Ok in Hinc as (s & _ & Hinc). pose proof (sampled_log n _ _ _ _ _ _ _ Hinc) as H2. split_and!; [|done|done].
    intros k Hk Hne. by rewrite H2, Hl1.
Qed.

Lemma loop_log fuel names : NoDup names -> forall m log ri comp r m' log' ri' comp' r',
  (forall n, n ∈ names -> is_Some (obs !! n) /\ n ∉ comp) ->
  foldM (incorporate_next logged parse fuel o obs n2b) ((m, log), ri, comp, r) names = Ok ((m', log'), ri', comp', r') ->
  (forall n, is_Some (obs !! n) -> n ∉ names -> calls_for log' n = calls_for log n) /\
  (forall n l, n ∈ names -> obs !! n = Some l -> exists vs, Forall2 (fun x v => parse n x.2 = Ok v) l vs /\ calls_for log' n = calls_for log n ++ zip (map fst l) vs).
Proof.
  induction 1 as [|n names Hn Hnd IH]; intros m log ri comp r m' log' ri' comp' r' Hnames; cbn [foldM].
  { intros [= <- <- <- <- <-]. split; [done|]. by intros ?? ?%elem_of_nil. }
  intros H. apply obind_Ok in H as ([[[[m1 log1] ri1] comp1] r1] & H1 & H2). unfold incorporate_next in H1.
  destruct (Hnames n) as [Hs Hnc]; [by left|]. rewrite bool_decide_eq_false_2 in H1 by done.
  destruct (relation_log _ _ _ _ _ _ _ _ _ _ _ _ H1) as (A1 & A2 & A3).
  edestruct IH as [B1 B2]; [|exact H2|].
  { intros k Hk. destruct (Hnames k) as [Hks Hkc]; [by right|]. split; [done|]. rewrite A2 by done. intros [?| ->]; done. }
  split.
  - intros k Hk Hkn. apply not_elem_of_cons in Hkn as [Hne Hkn]. by rewrite B1, A1.
  - intros k l [->|Hk]%elem_of_cons Hl.
    + destruct (A3 l Hl) as (vs & HF & Hc). exists vs. split; [done|]. by rewrite B1.
    + destruct (B2 k l Hk Hl) as (vs & HF & Hc). exists vs. split; [done|]. rewrite Hc, A1; [done|by eauto|]. by intros ->.
Qed.
End Logged.
