(** Which list of observations is scored for a file of held-out observations. *)
From Coq Require Import String Ascii.
From stdpp Require Import gmap strings sorting list.
From Coq Require Import ZArith Reals Lia.
From Verif Require Import M_base M_dist M_crp M_domain M_relation M_noisy M_irm M_logp M_hirm M_text M_io M_heldout
  S_irm S_io S_heldout P_base P_io.
Local Open Scope nat_scope.

Lemma encode_items_iff f items : forall ds es, encode_items f ds items = Ok es <-> coded f ds items es.
Proof.
  unfold coded. induction items as [|x items IH]; intros ds es; cbn [encode_items].
  { rewrite zip_with_nil_r. split.
    - intros [= <-]. split; [cbn; lia|constructor].
    - intros [_ H]. by inversion H. }
  destruct ds as [|d ds]; cbn [head idx_ obind tail].
  { split; [done|]. intros [H _]. cbn in H. lia. }
  cbn [zip zip_with length]. split.
  - intros H. apply obind_Ok in H as (m & Hm%at_Ok & H). apply obind_Ok in H as (c & Hc%at_Ok & H). apply obind_Ok in H as (cs & Hcs & [= <-]).
    apply IH in Hcs as [Hl HF]. split; [lia|]. constructor; [by exists m|done].
  - intros [Hl HF]. inversion HF as [|? c ? cs (m & Hm & Hc) HF' E1 E2]; subst. cbn [fst snd] in *. rewrite Hm. cbn. rewrite Hc. cbn.
    rewrite (proj2 (IH ds cs)); [done|]. split; [lia|done].
Qed.

Definition encodes_f (f : gmap string (gmap string Z)) (ds : list string) (x : list string * string) (y : items_t * string) : Prop :=
  coded f ds x.1 y.1 /\ y.2 = x.2.
Lemma encode_list_iff f ds rel l : forall acc acc' : encoded,
  foldM (fun acc (x : list string * string) => let* es := encode_items f ds x.1 in Ok (push acc rel (es, x.2))) acc l = Ok acc' <->
  exists l', Forall2 (encodes_f f ds) l l' /\ acc' = match l with [] => acc | _ => <[rel := default [] (acc !! rel) ++ l']> acc end.
Proof.
  induction l as [|x l IH]; intros acc acc'; cbn [foldM].
  { split.
    - intros [= <-]. exists []. split; [constructor|done].
    - by intros (l' & _ & ->). }
  split.
  - intros H. apply obind_Ok in H as (acc1 & H1 & H). apply obind_Ok in H1 as (es & Hes%encode_items_iff & [= <-]).
    apply IH in H as (l' & HF & ->). exists ((es, x.2) :: l'). split; [by constructor|]. unfold push. destruct l as [|x' l].
    + inversion HF; subst. done.
    + rewrite lookup_insert, insert_insert. cbn [default]. unfold Datatypes.id. by rewrite <- app_assoc.
  - intros (l' & HF & ->). inversion HF as [|? [es v] ? l'' [Hes Hv] HF' E1 E2]; subst. cbn [fst snd] in *. subst v.
    rewrite (proj2 (encode_items_iff f x.1 ds es) Hes). cbn [obind]. apply IH. exists l''. split; [done|]. unfold push. destruct l as [|x' l].
    + inversion HF'; subst. done.
    + rewrite lookup_insert, insert_insert. cbn [default]. unfold Datatypes.id. by rewrite <- app_assoc.
Qed.

Section Run.
Context {M V : Type} (X : @model_ops M V) (parse : string -> string -> outcome V).
Notation obs_t := (string * items_t * V)%type.

Definition encoded_rel f (domains_of : string -> option (list string)) (obs : observations) (e : encoded) (rel : string) : Prop :=
  exists ds l', domains_of rel = Some ds /\ Forall2 (encodes_f f ds) (default [] (obs !! rel)) l' /\ e !! rel = match l' with [] => None | _ => Some l' end.

Lemma encode_relations_inv f domains_of obs rels : NoDup rels -> forall acc e : encoded, (forall rel, rel ∈ rels -> acc !! rel = None) ->
  foldM (encode_relation f domains_of obs) acc rels = Ok e ->
  (forall rel, rel ∉ rels -> e !! rel = acc !! rel) /\ (forall rel, rel ∈ rels -> encoded_rel f domains_of obs e rel).
Proof.
  induction 1 as [|a rels Ha Hnd IH]; intros acc e Hacc H; cbn [foldM] in H.
  { injection H as <-. split; [done|]. intros rel Hin. by apply elem_of_nil in Hin. }
  apply obind_Ok in H as (acc1 & H1 & H). unfold encode_relation in H1. apply obind_Ok in H1 as (ds & Hds%at_Ok & H1).
  apply encode_list_iff in H1 as (l' & HF & E). rewrite (Hacc a) in E by left. cbn [default app] in E.
  assert (forall rel, rel <> a -> acc1 !! rel = acc !! rel) as Hne.
  { intros rel Hr. subst acc1. destruct (default [] (obs !! a)); [done|]. by rewrite lookup_insert_ne. }
  destruct (IH acc1 e) as [I1 I2]; [|done|].
  { intros rel Hr. rewrite Hne by by intros ->. apply Hacc. by right. }
  split.
  - intros rel Hr. apply not_elem_of_cons in Hr as [Hr Hr']. by rewrite I1, Hne.
  - intros rel [->|Hr]%elem_of_cons; [|by apply I2]. exists ds, l'. split; [done|]. split; [done|]. rewrite (I1 a Ha). subst acc1.
    destruct (default [] (obs !! a)); inversion HF; subst; [apply Hacc; left|]. by rewrite lookup_insert.
Qed.
Lemma encode_relations_run f domains_of obs rels : Forall (fun rel => exists ds, domains_of rel = Some ds /\
    Forall (fun x => exists y, encodes_f f ds x y) (default [] (obs !! rel))) rels -> forall acc : encoded,
  exists e, foldM (encode_relation f domains_of obs) acc rels = Ok e.
Proof.
  induction 1 as [|a rels (ds & Hds & HF) _ IH]; intros acc; cbn [foldM]; [by eexists|].
  assert (exists l', Forall2 (encodes_f f ds) (default [] (obs !! a)) l') as [l' Hl'].
  { clear -HF. induction HF as [|x l [y Hy] _ [l' IH]]; [by exists []|]. exists (y :: l'). by constructor. }
  unfold encode_relation at 1. rewrite Hds. cbn [at_ obind].
  rewrite (proj2 (encode_list_iff f ds a _ acc _) (ex_intro _ l' (conj Hl' eq_refl))). cbn [obind]. apply IH.
Qed.

Definition parsed (rel : string) (y : items_t * string) (ob : obs_t) : Prop := ob.1 = (rel, y.1) /\ parse rel y.2 = Ok ob.2.
Lemma heldout_ones rel l : forall acc acc', foldM (heldout_one parse rel) acc l = Ok acc' <-> exists k, Forall2 (parsed rel) l k /\ acc' = acc ++ k.
Proof.
  induction l as [|x l IH]; intros acc acc'; cbn [foldM].
  { split.
    - intros [= <-]. exists []. split; [constructor|by rewrite app_nil_r].
    - intros (k & HF & ->). inversion HF. by rewrite app_nil_r. }
  unfold heldout_one at 1. split.
  - intros H. apply obind_Ok in H as (acc1 & H1 & H). apply obind_Ok in H1 as (v & Hv & [= <-]). apply IH in H as (k & HF & ->).
    exists ((rel, x.1, v) :: k). split; [constructor; [by split|done]|]. by rewrite <- app_assoc.
  - intros (k & HF & ->). inversion HF as [|? [i v] ? k' [Hi Hv] HF' E1 E2]; subst. cbn [fst snd] in *. subst i. rewrite Hv. cbn [obind].
    apply IH. exists k'. split; [done|]. by rewrite <- app_assoc.
Qed.
Lemma parsed_names rel l k : Forall2 (parsed rel) l k -> Forall (fun ob : obs_t => ob.1.1 = rel) k.
Proof. induction 1 as [|y ob l k [E _] _ IH]; [constructor|]. constructor; [by rewrite E|done]. Qed.

Lemma filter_all {A} (P : A -> Prop) `{!forall x, Decision (P x)} (l : list A) : Forall P l -> filter P l = l.
Proof. induction 1 as [|x l Hx _ IH]; [done|]. by rewrite filter_cons_True, IH. Qed.
Lemma filter_none {A} (P : A -> Prop) `{!forall x, Decision (P x)} (l : list A) : Forall (fun x => ~ P x) l -> filter P l = [].
Proof. induction 1 as [|x l Hx _ IH]; [done|]. by rewrite filter_cons_False. Qed.

Lemma heldout_relations m e rels : NoDup rels -> forall acc l, foldM (heldout_relation X parse m e) acc rels = Ok l ->
  exists k, l = acc ++ k /\ Forall (fun ob : obs_t => ob.1.1 ∈ rels) k /\
    (forall rel, rel ∈ rels -> (exists a, op_get X m rel = Ok a) /\ Forall2 (parsed rel) (default [] (e !! rel)) (filter (fun ob : obs_t => ob.1.1 = rel) k)).
Proof.
  induction 1 as [|a rels Ha Hnd IH]; intros acc l H; cbn [foldM] in H.
  { injection H as <-. exists []. split; [by rewrite app_nil_r|]. split; [constructor|]. intros rel Hin. by apply elem_of_nil in Hin. }
  apply obind_Ok in H as (acc1 & H1 & H). unfold heldout_relation in H1. apply obind_Ok in H1 as (ar & Har & H1).
  apply heldout_ones in H1 as (k1 & HF & ->). destruct (IH _ _ H) as (k & -> & Hk & Hr). pose proof (parsed_names _ _ _ HF) as Hn.
  exists (k1 ++ k). split; [by rewrite app_assoc|]. split.
  { apply Forall_app. split; [eapply Forall_impl; [exact Hn|]; intros ob ->; left|eapply Forall_impl; [exact Hk|]; intros ob ?; by right]. }
  intros rel [->|Hrel]%elem_of_cons; rewrite filter_app.
  - split; [by eexists|]. rewrite filter_all by done. rewrite filter_none, app_nil_r; [done|].
    eapply Forall_impl; [exact Hk|]. intros ob Hob <-. exact (Ha Hob).
  - destruct (Hr rel Hrel) as [Hg HF']. split; [done|]. rewrite filter_none; [done|]. eapply Forall_impl; [exact Hn|]. intros ob Eob E. congruence.
Qed.
Lemma heldout_relations_run m e rels : Forall (fun rel => (exists a, op_get X m rel = Ok a) /\ Forall (fun y => exists v, parse rel y.2 = Ok v) (default [] (e !! rel))) rels ->
  forall acc, exists l, foldM (heldout_relation X parse m e) acc rels = Ok l.
Proof.
  induction 1 as [|a rels [[ar Har] HF] _ IH]; intros acc; cbn [foldM]; [by eexists|]. unfold heldout_relation at 1. rewrite Har. cbn [obind].
  assert (exists k, Forall2 (parsed a) (default [] (e !! a)) k) as [k Hk].
  { clear -HF. induction HF as [|y l [v Hv] _ [k IH]]; [by exists []|]. exists ((a, y.1, v) :: k). by constructor. }
  rewrite (proj2 (heldout_ones a _ acc _) (ex_intro _ k (conj Hk eq_refl))). cbn [obind]. apply IH.
Qed.

(** The list that is scored. *)
Lemma heldout_list_inv o m f obs l : orders_ok o -> heldout_list X parse o m f obs = Ok l -> forall rel,
  Forall2 (scored_as parse f (op_domains X m) rel) (default [] (obs !! rel)) (filter (fun ob : obs_t => ob.1.1 = rel) l).
Proof.
  intros Ho H rel. unfold heldout_list in H. apply obind_Ok in H as (e & He & H). unfold encode_observations in He.
  destruct (encode_relations_inv f (op_domains X m) obs (o_names o (dom obs)) (o_names_nodup o _ Ho) ∅ e) as [E1 E2]; [by intros; rewrite lookup_empty|done|].
  destruct (heldout_relations m e _ (o_names_nodup o _ Ho) _ _ H) as (k & -> & Hk & Hr). cbn [app].
  assert (rel ∉ dom e -> filter (fun ob : obs_t => ob.1.1 = rel) k = []) as Hno.
  { intros Hn. apply filter_none. eapply Forall_impl; [exact Hk|]. intros ob Hob <-. apply in_o_names in Hob; done. }
  destruct (obs !! rel) as [xs|] eqn:Ex; cbn [default].
  - destruct (E2 rel) as (ds & l' & Hds & HF & El); [apply in_o_names; [done|]; apply elem_of_dom; by eexists|]. rewrite Ex in HF. cbn [default] in HF. unfold Datatypes.id in *.
    destruct l' as [|y l'].
    + inversion HF; subst. rewrite Hno; [constructor|]. by apply not_elem_of_dom.
    + destruct (Hr rel) as [_ HP]; [apply in_o_names; [done|]; apply elem_of_dom; by eexists|]. rewrite El in HP. cbn [default] in HP. unfold Datatypes.id in HP.
      revert HF HP. generalize (y :: l'). clear -Hds. intros ys HF. revert ys HF. generalize (filter (fun ob : obs_t => ob.1.1 = rel) k).
      induction xs as [|x xs IH]; intros k0 ys HF HP; inversion HF as [|? y0 ? ys' [Hc Hv] HF' E1 E2]; subst; inversion HP as [|? ob ? k' [Hob Hp] HP' E1 E2]; subst; [constructor|].
      constructor; [|by eapply IH]. split; [by rewrite Hob|]. split; [exists ds; split; [done|]; by rewrite Hob|by rewrite <- Hv].
  - rewrite Hno; [constructor|]. apply not_elem_of_dom. rewrite E1; [apply lookup_empty|]. rewrite in_o_names by done. by apply not_elem_of_dom.
Qed.

Definition all_scored f m (obs : observations) : Prop := forall rel l, obs !! rel = Some l ->
  is_Some (op_domains X m rel) /\ (l <> [] -> exists a, op_get X m rel = Ok a) /\ Forall (fun x => exists ob, scored_as parse f (op_domains X m) rel x ob) l.
Lemma heldout_list_iff o m f obs : orders_ok o -> (exists l, heldout_list X parse o m f obs = Ok l) <-> all_scored f m obs.
Proof.
  intros Ho. split.
  - intros [l H] rel xs Hxs. pose proof (heldout_list_inv o m f obs l Ho H rel) as HF. rewrite Hxs in HF. cbn [default] in HF. unfold Datatypes.id in HF.
    unfold heldout_list in H. apply obind_Ok in H as (e & He & H).
    destruct (encode_relations_inv f (op_domains X m) obs (o_names o (dom obs)) (o_names_nodup o _ Ho) ∅ e) as [E1 E2]; [by intros; rewrite lookup_empty|done|].
    destruct (E2 rel) as (ds & l' & Hds & HF2 & El); [apply in_o_names; [done|]; apply elem_of_dom; by eexists|]. split; [by eexists|]. split.
    + intros Hne. rewrite Hxs in HF2. cbn [default] in HF2. unfold Datatypes.id in HF2.
      destruct (heldout_relations m e _ (o_names_nodup o _ Ho) _ _ H) as (k & _ & _ & Hr). destruct (Hr rel) as [Hg _]; [|done].
      apply in_o_names; [done|]. apply elem_of_dom. rewrite El. destruct l'; [|by eexists]. by inversion HF2; subst.
    + clear -HF. induction HF; constructor; eauto.
  - intros H. unfold heldout_list, encode_observations.
    destruct (encode_relations_run f (op_domains X m) obs (o_names o (dom obs))) with (acc := (∅ : encoded)) as [e He].
    { apply Forall_forall. intros rel Hrel. apply in_o_names in Hrel; [|done]. apply elem_of_dom in Hrel as [xs Hxs]. destruct (H rel xs Hxs) as ([ds Hds] & _ & HF).
      exists ds. split; [done|]. rewrite Hxs. cbn [default]. unfold Datatypes.id. eapply Forall_impl; [exact HF|]. intros x (ob & _ & (ds' & Hds' & Hc) & _).
      exists (ob.1.2, x.2). assert (ds' = ds) as -> by congruence. split; [exact Hc|done]. }
    rewrite He. cbn [obind]. apply heldout_relations_run. apply Forall_forall. intros rel Hrel. apply in_o_names in Hrel; [|done].
    destruct (encode_relations_inv f (op_domains X m) obs (o_names o (dom obs)) (o_names_nodup o _ Ho) ∅ e) as [E1 E2]; [by intros; rewrite lookup_empty|done|].
    destruct (decide (rel ∈ dom obs)) as [Hd|Hd].
    + destruct (E2 rel) as (ds & l' & Hds & HF2 & El); [by apply in_o_names|]. apply elem_of_dom in Hd as [xs Hxs]. rewrite Hxs in HF2. cbn [default] in HF2. unfold Datatypes.id in HF2.
      destruct (H rel xs Hxs) as (_ & Hg & HF). apply elem_of_dom in Hrel as [k Hk]. rewrite El in Hk. destruct l' as [|y l']; [done|].
      split; [apply Hg; by intros ->; inversion HF2|]. rewrite El. cbn [default]. unfold Datatypes.id. clear -HF HF2.
      induction HF2 as [|x y0 xs ys [_ Hv] _ IH]; [constructor|]. apply Forall_cons in HF as [(ob & _ & _ & Hp) HF]. constructor; [|by apply IH]. exists ob.2. by rewrite Hv.
    + exfalso. rewrite <- (in_o_names o (dom obs)) in Hd by done. apply elem_of_dom in Hrel as [k Hk]. by rewrite (E1 rel Hd), lookup_empty in Hk.
Qed.

(** Lists that agree relation by relation are permutations. *)
Lemma by_name_perm (l : list obs_t) : forall l', (forall rel, filter (fun ob : obs_t => ob.1.1 = rel) l = filter (fun ob : obs_t => ob.1.1 = rel) l') -> l ≡ₚ l'.
Proof.
  induction l as [|ob l IH]; intros l' H.
  { destruct l' as [|ob l']; [done|]. specialize (H ob.1.1). by rewrite filter_cons_True in H. }
  assert (ob ∈ l') as Hin.
  { specialize (H ob.1.1). rewrite filter_cons_True in H by done. assert (ob ∈ filter (fun o : obs_t => o.1.1 = ob.1.1) l') as Hx by (rewrite <- H; left). by apply elem_of_list_filter in Hx as [_ ?]. }
  assert (exists l1 l2, l' = l1 ++ ob :: l2 /\ filter (fun o : obs_t => o.1.1 = ob.1.1) l1 = []) as (l1 & l2 & -> & Hl1).
  { specialize (H ob.1.1). rewrite filter_cons_True in H by done. clear IH Hin. revert H. generalize (filter (fun o : obs_t => o.1.1 = ob.1.1) l). intros q.
    induction l' as [|x l' IH]; [done|]. rewrite filter_cons. destruct (decide (x.1.1 = ob.1.1)) as [E|E].
    - intros [= <- _]. by exists [], l'.
    - intros Hq. destruct (IH Hq) as (l1 & l2 & -> & Hn). exists (x :: l1), l2. split; [done|]. by rewrite filter_cons_False. }
  rewrite (IH (l1 ++ l2)); [by rewrite Permutation_middle|]. intros rel. specialize (H rel). rewrite filter_app in *. rewrite !filter_cons in H.
  destruct (decide (ob.1.1 = rel)) as [<-|Hne]; [|done]. rewrite Hl1 in *. cbn [app] in *. by injection H as ->.
Qed.

Lemma coded_fun f ds names k k' : coded f ds names k -> coded f ds names k' -> k = k'.
Proof. rewrite <- !encode_items_iff. congruence. Qed.
Lemma scored_as_fun f dom_of rel x (ob ob' : obs_t) : scored_as parse f dom_of rel x ob -> scored_as parse f dom_of rel x ob' -> ob = ob'.
Proof.
  intros (E & (ds & Hds & Hc) & Hp) (E' & (ds' & Hds' & Hc') & Hp'). destruct ob as [[n i] v], ob' as [[n' i'] v']. cbn [fst snd] in *.
  assert (ds' = ds) as -> by congruence. assert (i' = i) as -> by by eapply coded_fun. congruence.
Qed.
Lemma Forall2_fun {A B} (P : A -> B -> Prop) l : (forall x y z, P x y -> P x z -> y = z) -> forall k k', Forall2 P l k -> Forall2 P l k' -> k = k'.
Proof. intros H. induction l as [|x l IH]; intros k k' H1 H2; inversion H1; inversion H2; subst; [done|]. f_equal; eauto. Qed.

Lemma heldout_list_order o o' m f obs l : orders_ok o -> orders_ok o' -> heldout_list X parse o m f obs = Ok l ->
  exists l', heldout_list X parse o' m f obs = Ok l' /\ l ≡ₚ l'.
Proof.
  intros Ho Ho' H. assert (all_scored f m obs) as Hs by (apply (heldout_list_iff o); [done|by eexists]).
  apply (heldout_list_iff o') in Hs as [l' Hl']; [|done]. exists l'. split; [done|]. apply by_name_perm. intros rel.
  eapply Forall2_fun; [|by apply (heldout_list_inv o m f obs)|by apply (heldout_list_inv o' m f obs)]. intros x y z. apply scored_as_fun.
Qed.
End Run.
