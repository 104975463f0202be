(** C74: scoring held-out observations. *)
From Coq Require Import String Ascii.
From stdpp Require Import gmap strings sorting list.
From Coq Require Import ZArith Reals Lra Lia.
From Verif Require Import M_base M_math M_crp M_domain M_dist M_relation M_noisy M_irm M_logp M_hirm M_text M_io M_heldout
  S_math S_crp S_relation S_irm S_logp S_hirm S_hirm_logp S_io S_heldout P_base P_irm P_irm_gibbs P_logp P_hirm P_hirm_move P_io P_tally P_irm_history P_hirm_history P_hirm_ctor T_irm T_hirm T_logp T_hirm_logp T_io P_logp_order P_heldout.
Local Open Scope string_scope.
Local Open Scope list_scope.
Local Open Scope nat_scope.

Section Heldout.
Context {V : Type} (parse : string -> string -> outcome V).
Implicit Types (ir : irm V) (h : hirm V) (obs heldout : observations).
Notation irm_domains ir := (fun rel => t_domains <$> i_schema ir !! rel).
Notation hirm_domains h := (fun rel => t_domains <$> h_schema h !! rel).

(** The score of a file is the log probability the model gives to its observations, all of
    them, each once, as a joint observation; of every relation, in the order of the file. *)
Theorem C74_scores_the_file_irm : forall o ir f heldout r x r', orders_ok o -> irm_heldout_logp parse o ir f heldout r = Ok (x, r') ->
  exists l, irm_logp ir l r = Ok (x, r') /\
    forall rel, Forall2 (scored_as parse f (irm_domains ir) rel) (default [] (heldout !! rel)) (filter (fun ob : string * items_t * V => ob.1.1 = rel) l).
Proof.
  intros o ir f heldout r x r' Ho H. unfold irm_heldout_logp in H. apply obind_Ok in H as (l & Hl & H). exists l. split; [done|]. intros rel.
  by apply (heldout_list_inv irm_ops parse o ir f heldout l Ho).
Qed.
Theorem C74_scores_the_file_hirm : forall o h f heldout r x r', orders_ok o -> hirm_heldout_logp parse o h f heldout r = Ok (x, r') ->
  exists l, hirm_logp o h l r = Ok (x, r') /\
    forall rel, Forall2 (scored_as parse f (hirm_domains h) rel) (default [] (heldout !! rel)) (filter (fun ob : string * items_t * V => ob.1.1 = rel) l).
Proof.
  intros o h f heldout r x r' Ho H. unfold hirm_heldout_logp in H. apply obind_Ok in H as (l & Hl & H). exists l. split; [done|]. intros rel.
  by apply (heldout_list_inv hirm_ops parse o h f heldout l Ho).
Qed.

(** Neither the order of iterating the hash maps nor the random draws matter. *)
Theorem C74_order_irm : forall ar ir A o o' f heldout r r2 x r1, irm_holds ar ir A -> positive (i_domains ir) -> all_fresh_determined ir ->
  orders_ok o -> orders_ok o' -> (exists rel xs y, heldout !! rel = Some xs /\ y ∈ xs /\ y.1 <> []) ->
  irm_heldout_logp parse o ir f heldout r = Ok (x, r1) ->
  exists y r3, irm_heldout_logp parse o' ir f heldout r2 = Ok (y, r3) /\ eexp y = eexp x.
Proof.
  intros ar ir A o o' f heldout r r2 x r1 Hh Hp Hd Ho Ho' Hne H. destruct (C74_scores_the_file_irm _ _ _ _ _ _ _ Ho H) as (k & Hk & Hrel).
  unfold irm_heldout_logp in H. apply obind_Ok in H as (l & Hl & H).
  destruct (heldout_list_order irm_ops parse o o' ir f heldout l Ho Ho' Hl) as (l' & Hl' & HP).
  unfold irm_heldout_logp. rewrite Hl'. cbn [obind]. eapply irm_logp_perm; [exact Hh|exact Hp|exact Hd| |exact HP|exact H].
  destruct Hne as (rel & xs & y & Hxs & Hy & Hyne). pose proof (heldout_list_inv irm_ops parse o ir f heldout l Ho Hl rel) as HF.
  rewrite Hxs in HF. cbn [default] in HF. unfold Datatypes.id in HF. apply elem_of_list_lookup in Hy as [i Hi].
  destruct (Forall2_lookup_l _ _ _ _ _ HF Hi) as (ob & Hob & En & (ds & Hds & Hlen & HC) & _). apply elem_of_list_lookup_2, elem_of_list_filter in Hob as [_ Hob].
  destruct (irm_logp_inv ir l r _ H) as [Hsh _]. destruct (proj1 (Forall_forall _ _) Hsh ob Hob) as (a & Ha & Hal).
  destruct y as [[|n names] v]; [done|]. destruct ds as [|d ds]; [cbn in Hlen; lia|]. cbn [fst snd zip zip_with] in HC.
  destruct ob as [[nm items] v']. cbn [fst snd] in *. destruct items as [|e items]; [inversion HC|]. destruct (any_doms a) as [|d' ds'] eqn:Ea; [done|].
  exists (nm, e :: items, v'), d', e. split; [done|]. exists a. split; [done|]. unfold mentions. cbn [fst snd]. rewrite Ea. cbn. left.
Qed.
Theorem C74_order_hirm : forall h a o o' f heldout r r2 x r1, hirm_holds h a -> hirm_scorable h -> orders_ok o -> orders_ok o' ->
  hirm_heldout_logp parse o h f heldout r = Ok (x, r1) ->
  exists y r3, hirm_heldout_logp parse o' h f heldout r2 = Ok (y, r3) /\ eexp y = eexp x.
Proof.
  intros h a o o' f heldout r r2 x r1 Hh Hs Ho Ho' H. unfold hirm_heldout_logp in H. apply obind_Ok in H as (l & Hl & H).
  destruct (heldout_list_order hirm_ops parse o o' h f heldout l Ho Ho' Hl) as (l' & Hl' & HP).
  unfold hirm_heldout_logp. rewrite Hl'. cbn [obind]. exact (hirm_logp_perm h a o o' l l' r x r1 r2 Hh Hs Ho Ho' HP H).
Qed.

(** ** A file that can be scored *)
Lemma NoDup_by_name (l : list (string * items_t * V)) : (forall rel, NoDup (filter (fun ob : string * items_t * V => ob.1.1 = rel) l).*1) -> NoDup l.*1.
Proof.
  induction l as [|ob l IH]; intros H; [constructor|]. rewrite fmap_cons. constructor.
  - intros (ob' & E & Hin)%elem_of_list_fmap. specialize (H ob.1.1). rewrite filter_cons_True in H by done. rewrite fmap_cons in H. apply NoDup_cons in H as [H _].
    apply H. apply elem_of_list_fmap. exists ob'. split; [done|]. apply elem_of_list_filter. split; [by rewrite E|done].
  - apply IH. intros rel. specialize (H rel). rewrite filter_cons in H. destruct (decide _); [|done]. rewrite fmap_cons in H. by apply NoDup_cons in H as [_ ?].
Qed.

Lemma coded_inj o schema all E ds n n' k : orders_ok o -> calculate_encoding o schema all = Ok E -> (exists rel, schema !! rel = Some ds) ->
  length n = length ds -> length n' = length ds -> coded (enc_f E) ds n k -> coded (enc_f E) ds n' k -> n = n'.
Proof.
  intros Ho HE [rel Hds] L1 L2 [_ H1] [_ H2].
  assert (forall d, d ∈ ds -> forall m x y c, enc_f E !! d = Some m -> m !! x = Some c -> m !! y = Some c -> x = y) as Hinj.
  { intros d Hd m x y c Hm Hx Hy. pose proof (proj1 (C28_encoding o schema all E Ho HE d)) as Hn.
    destruct Hn as (f & r & Hf & _ & _ & N2 & _); [exists rel, ds; done|]. assert (f = m) as -> by congruence. apply N2 in Hx, Hy. congruence. }
  clear HE Hds rel. revert n n' k L1 L2 H1 H2 Hinj. induction ds as [|d ds IH]; intros [|x n] [|y n'] k L1 L2 H1 H2 Hinj; try done.
  cbn in H1, H2. inversion H1 as [|? c ? k' (m & Hm & Hx) H1' E1 E2]; subst. inversion H2 as [|? ? ? ? (m' & Hm' & Hy) H2' E1 E2]; subst. cbn [fst snd] in *.
  assert (m' = m) as -> by congruence. f_equal; [by eapply (Hinj d ltac:(left))|]. eapply IH; [| |exact H1'|exact H2'|]; [cbn in L1; lia|cbn in L2; lia|].
  intros d' Hd'. apply Hinj. by right.
Qed.

Lemma coded_exists o schema all E rel ds l x : orders_ok o -> calculate_encoding o schema all = Ok E -> schema !! rel = Some ds ->
  all !! rel = Some l -> x ∈ l -> exists k, coded (enc_f E) ds x.1 k.
Proof.
  intros Ho HE Hds Hl Hx. assert (readable schema all) as Hr by (apply (C28_total o schema all Ho); by exists E).
  destruct x as [items v]. destruct (Hr _ _ _ _ Hl Hx) as (ds' & Hds' & Hlen). assert (ds' = ds) as -> by congruence.
  destruct (encode_items_ok E items ds Hlen) as (es & Hes & _); [|exists es; by apply encode_items_iff].
  intros d y (i & Hi & Hy). pose proof (proj1 (C28_encoding o schema all E Ho HE d)) as Hn.
  destruct Hn as (f & r & Hf & Hrr & N1 & N2 & _); [exists rel, ds; split; [done|by eapply elem_of_list_lookup_2]|].
  destruct (proj2 (N1 y)) as [c Hc]; [by exists rel, l, items, v, ds, i|]. exists f, r, c. split_and!; try done. by apply N2.
Qed.

(** The list made of a well-formed file names no observation twice. *)
Lemma scored_nodup o schema all E obs (dom_of : string -> option (list string)) (l : list (string * items_t * V)) : orders_ok o -> calculate_encoding o schema all = Ok E ->
  (forall rel, dom_of rel = schema !! rel) ->
  (forall rel xs x, obs !! rel = Some xs -> x ∈ xs -> exists ds, schema !! rel = Some ds /\ length x.1 = length ds) ->
  (forall rel xs, obs !! rel = Some xs -> NoDup xs.*1) ->
  (forall rel, Forall2 (scored_as parse (enc_f E) dom_of rel) (default [] (obs !! rel)) (filter (fun ob : string * items_t * V => ob.1.1 = rel) l)) -> NoDup l.*1.
Proof.
  intros Ho HE Hdom Hlen Hnd HF. apply NoDup_by_name. intros rel. specialize (HF rel). destruct (obs !! rel) as [xs|] eqn:Hxs; cbn [default] in HF; unfold Datatypes.id in HF.
  2:{ inversion HF. constructor. }
  specialize (Hnd rel xs Hxs). assert (Forall (fun x => exists ds, schema !! rel = Some ds /\ length x.1 = length ds) xs) as Hl.
  { apply Forall_forall. intros x Hx. by eapply Hlen. }
  clear Hlen Hxs. revert HF. generalize (filter (fun ob : string * items_t * V => ob.1.1 = rel) l). intros k HF.
  induction HF as [|x ob xs k Hob HF IH]; [constructor|]. rewrite fmap_cons in *. apply NoDup_cons in Hnd as [Hni Hnd]. apply Forall_cons in Hl as [(ds & Hds & Hlx) Hl].
  constructor; [|by apply IH]. intros (ob' & E' & Hin)%elem_of_list_fmap. apply elem_of_list_lookup in Hin as [i Hi].
  destruct (Forall2_lookup_r _ _ _ _ _ HF Hi) as (x' & Hx' & Hob'). apply Hni. apply elem_of_list_fmap. exists x'. split; [|by eapply elem_of_list_lookup_2].
  destruct (proj1 (Forall_lookup _ _) Hl i x' Hx') as (ds' & Hds' & Hlx'). assert (ds' = ds) as -> by congruence.
  destruct Hob as (_ & (d1 & Hd1 & C1) & _), Hob' as (_ & (d2 & Hd2 & C2) & _). rewrite Hdom in Hd1, Hd2. assert (d1 = ds) as -> by congruence. assert (d2 = ds) as -> by congruence.
  rewrite <- E' in C2. eapply coded_inj; [exact Ho|exact HE|by exists rel|done|done|exact C1|exact C2].
Qed.

(** A held-out file is scored if the encoding was computed from the observations together
    with the held-out ones (as the program does), every held-out observation is one of a
    clean relation, complete and with a value the relation reads and scores, and none is
    repeated. *)
Theorem C74_succeeds_hirm : forall h a o o' train heldout E r, hirm_holds h a -> hirm_scorable h -> orders_ok o -> orders_ok o' ->
  calculate_encoding o (t_domains <$> h_schema h) (merge_observations train heldout) = Ok E ->
  dom heldout ⊆ dom (h_schema h) ->
  (forall rel xs x, heldout !! rel = Some xs -> x ∈ xs -> exists ds ob D sp v, h_schema h !! rel = Some (TClean ds ob D sp) /\ length x.1 = length ds /\
     parse rel x.2 = Ok v /\ forall s, exists lp, d_logp D s v = Ok lp) ->
  (forall rel xs, heldout !! rel = Some xs -> NoDup xs.*1) ->
  exists y r', hirm_heldout_logp parse o' h (enc_f E) heldout r = Ok (y, r').
Proof.
  intros h a o o' train heldout E r Hh Hsc Ho Ho' HE Hd Hobs Hnd.
  assert (exists l, heldout_list hirm_ops parse o' h (enc_f E) heldout = Ok l) as [l Hl].
  { apply heldout_list_iff; [done|]. intros rel xs Hxs. assert (rel ∈ dom (h_schema h)) as [ty Hty]%elem_of_dom by (apply Hd, elem_of_dom; by eexists).
    split; [cbn; rewrite Hty; by eexists|]. split.
    - intros _. destruct (member h a rel _ Hh Hty) as (? & ? & ? & ? & x & _ & _ & _ & _ & _ & _ & _ & _ & Hx). exists x. by apply get_relation_Ok.
    - apply Forall_forall. intros x Hx. destruct (Hobs rel xs x Hxs Hx) as (ds & ob & D & sp & v & Hty' & Hlen & Hp & _).
      assert ((t_domains <$> h_schema h) !! rel = Some ds) as Hds by by rewrite lookup_fmap, Hty'.
      destruct (proj1 (proj2 (C28_merged train heldout)) rel xs x Hxs Hx) as (l' & Hl' & Hx').
      destruct (coded_exists o _ _ E rel ds l' x Ho HE Hds Hl' Hx') as [k Hk]. exists (rel, k, v). split; [done|]. split; [|done].
      exists ds. split; [cbn; by rewrite Hty'|done]. }
  unfold hirm_heldout_logp. rewrite Hl. cbn [obind]. pose proof (heldout_list_inv hirm_ops parse o' h (enc_f E) heldout l Ho' Hl) as HF.
  eapply C62_succeeds; [exact Hh|exact Hsc|exact Ho'| |].
  - eapply (scored_nodup o _ _ E heldout (fun rel => t_domains <$> h_schema h !! rel) l Ho HE); [intros rel; by rewrite lookup_fmap| |exact Hnd|exact HF].
    intros rel xs x Hxs Hx. destruct (Hobs rel xs x Hxs Hx) as (ds & ob & D & sp & v & Hty' & Hlen & _). exists ds. by rewrite lookup_fmap, Hty'.
  - intros name items v Hin. specialize (HF name). assert ((name, items, v) ∈ filter (fun ob : string * items_t * V => ob.1.1 = name) l) as Hin' by by apply elem_of_list_filter.
    apply elem_of_list_lookup in Hin' as [i Hi]. destruct (Forall2_lookup_r _ _ _ _ _ HF Hi) as (x & Hx & Hs).
    destruct (heldout !! name) as [xs|] eqn:Hxs; [|done]. cbn [default] in Hx. unfold Datatypes.id in Hx. apply elem_of_list_lookup_2 in Hx.
    destruct (Hobs name xs x Hxs Hx) as (ds & ob & D & sp & v' & Hty & Hlen & Hp & Hlp). destruct Hs as (_ & (ds' & Hds' & Hlen' & HC) & Hp'). cbn [fst snd] in *.
    assert (v' = v) as -> by congruence. exists ds, ob, D, sp. split; [done|]. split; [|done]. cbn in Hds'. rewrite Hty in Hds'. cbn in Hds'. injection Hds' as <-.
    apply Forall2_length in HC. rewrite <- HC, zip_with_length. lia.
Qed.

Theorem C74_succeeds_irm : forall ar ir A o o' train heldout E r, irm_holds ar ir A -> positive (i_domains ir) -> all_fresh_determined ir -> orders_ok o -> orders_ok o' ->
  calculate_encoding o (t_domains <$> i_schema ir) (merge_observations train heldout) = Ok E ->
  dom heldout ⊆ dom (i_schema ir) -> (exists rel xs x, heldout !! rel = Some xs /\ x ∈ xs /\ x.1 <> []) ->
  (forall rel xs x, heldout !! rel = Some xs -> x ∈ xs -> exists D rl v, i_rels ir !! rel = Some (AClean D rl) /\ length x.1 = length (r_doms rl) /\
     parse rel x.2 = Ok v /\ forall s, exists lp, d_logp D s v = Ok lp) ->
  (forall rel xs, heldout !! rel = Some xs -> NoDup xs.*1) ->
  exists y r', irm_heldout_logp parse o' ir (enc_f E) heldout r = Ok (y, r').
Proof.
  intros ar ir A o o' train heldout E r Hh Hpos Hdet Ho Ho' HE Hd Hne Hobs Hnd.
  assert (forall rel xs x, heldout !! rel = Some xs -> x ∈ xs -> exists ty D rl v, i_schema ir !! rel = Some ty /\ t_domains ty = r_doms rl /\
    i_rels ir !! rel = Some (AClean D rl) /\ length x.1 = length (r_doms rl) /\ parse rel x.2 = Ok v /\ forall s, exists lp, d_logp D s v = Ok lp) as Hobs'.
  { intros rel xs x Hxs Hx. destruct (Hobs rel xs x Hxs Hx) as (D & rl & v & Ha & Hrest). destruct (irm_schema_lookup ar ir A rel _ Hh Ha) as (ty & Hty & _ & Edom).
    exists ty, D, rl, v. done. }
  assert (exists l, heldout_list irm_ops parse o' ir (enc_f E) heldout = Ok l) as [l Hl].
  { apply heldout_list_iff; [done|]. intros rel xs Hxs. assert (rel ∈ dom (i_schema ir)) as [ty Hty]%elem_of_dom by (apply Hd, elem_of_dom; by eexists).
    split; [cbn; rewrite Hty; by eexists|]. split.
    - intros _. destruct (irm_rel_lookup ar ir A rel ty Hh Hty) as (x & Hx & _). exists x. cbn. by rewrite Hx.
    - apply Forall_forall. intros x Hx. destruct (Hobs' rel xs x Hxs Hx) as (ty' & D & rl & v & Hty' & Edom & Ha & Hlen & Hp & _).
      assert ((t_domains <$> i_schema ir) !! rel = Some (r_doms rl)) as Hds by (rewrite lookup_fmap, Hty'; cbn; by rewrite Edom).
      destruct (proj1 (proj2 (C28_merged train heldout)) rel xs x Hxs Hx) as (l' & Hl' & Hx').
      destruct (coded_exists o _ _ E rel (r_doms rl) l' x Ho HE Hds Hl' Hx') as [k Hk]. exists (rel, k, v). split; [done|]. split; [|done].
      exists (r_doms rl). split; [cbn; rewrite Hty'; cbn; by rewrite Edom|done]. }
  unfold irm_heldout_logp. rewrite Hl. cbn [obind]. pose proof (heldout_list_inv irm_ops parse o' ir (enc_f E) heldout l Ho' Hl) as HF.
  assert (forall ob, ob ∈ l -> exists D rl, i_rels ir !! ob.1.1 = Some (AClean D rl) /\ length ob.1.2 = length (r_doms rl) /\ forall s, exists lp, d_logp D s ob.2 = Ok lp) as Hshape.
  { intros [[name items] v] Hin. specialize (HF name). assert ((name, items, v) ∈ filter (fun ob : string * items_t * V => ob.1.1 = name) l) as Hin' by by apply elem_of_list_filter.
    apply elem_of_list_lookup in Hin' as [i Hi]. destruct (Forall2_lookup_r _ _ _ _ _ HF Hi) as (x & Hx & Hs).
    destruct (heldout !! name) as [xs|] eqn:Hxs; [|done]. cbn [default] in Hx. unfold Datatypes.id in Hx. apply elem_of_list_lookup_2 in Hx.
    destruct (Hobs' name xs x Hxs Hx) as (ty & D & rl & v' & Hty & Edom & Ha & Hlen & Hp & Hlp). destruct Hs as (_ & (ds' & Hds' & Hlen' & HC) & Hp'). cbn [fst snd] in *.
    assert (v' = v) as -> by congruence. exists D, rl. split; [done|]. split; [|done]. cbn in Hds'. rewrite Hty in Hds'. cbn in Hds'. injection Hds' as <-. rewrite Edom in *.
    apply Forall2_length in HC. rewrite <- HC, zip_with_length. lia. }
  assert (exists st, irm_logp ir l r = Ok st) as [[y r'] Hy]; [|by exists y, r'].
  eapply (C44_succeeds ar ir A l r Hh Hpos Hdet).
  - apply Forall_forall. intros ob Hin. destruct (Hshape ob Hin) as (D & rl & Ha & Hlen & _). by exists (AClean D rl).
  - eapply (scored_nodup o _ _ E heldout (fun rel => t_domains <$> i_schema ir !! rel) l Ho HE); [intros rel; by rewrite lookup_fmap| |exact Hnd|exact HF].
    intros rel xs x Hxs Hx. destruct (Hobs' rel xs x Hxs Hx) as (ty & D & rl & v & Hty & Edom & _ & Hlen & _). exists (r_doms rl). rewrite lookup_fmap, Hty. cbn. by rewrite Edom.
  - destruct Hne as (rel & xs & x & Hxs & Hx & Hxne). specialize (HF rel). rewrite Hxs in HF. cbn [default] in HF. unfold Datatypes.id in HF.
    destruct (Hobs' rel xs x Hxs Hx) as (_ & D & rl & _ & _ & _ & Ha & Hlen & _). apply elem_of_list_lookup in Hx as [i Hi].
    destruct (Forall2_lookup_l _ _ _ _ _ HF Hi) as (ob & Hob & _). apply elem_of_list_lookup_2, elem_of_list_filter in Hob as [En Hob].
    destruct (Hshape ob Hob) as (D' & rl' & Ha' & Hlen' & _). rewrite En, Ha in Ha'. pose proof (f_equal (fun a => any_doms <$> a) Ha') as Ea. cbn in Ea. injection Ea as Ea. rewrite <- Ea in Hlen'.
    destruct x as [[|n names] v]; [done|]. cbn [fst snd] in *. destruct (r_doms rl) as [|d ds] eqn:Er; [done|]. destruct ob as [[nm items] v']. cbn [fst snd] in *. destruct items as [|e items]; [done|].
    exists (nm, e :: items, v'), d, e. split; [done|]. exists (AClean D rl). cbn [fst snd]. split; [congruence|]. unfold mentions. cbn [any_doms]. rewrite Er. cbn. left.
  - intros name items v Hin. destruct (Hshape _ Hin) as (D & rl & Ha & _ & Hlp). cbn [fst snd] in *. by exists D, rl.
Qed.

(** A file with an observation that cannot be read, or with one that is repeated, is
    never scored. *)
Lemma scored_names f dom_of rel xs (k : list (string * items_t * V)) : Forall2 (scored_as parse f dom_of rel) xs k -> NoDup k.*1 -> NoDup xs.*1.
Proof.
  induction 1 as [|x ob xs k (En & (ds & Hds & Hc) & _) HF IH]; intros Hnd; [constructor|]. rewrite fmap_cons in *. apply NoDup_cons in Hnd as [Hni Hnd].
  constructor; [|by apply IH]. intros (x' & Ex & Hin)%elem_of_list_fmap. apply Hni. apply elem_of_list_lookup in Hin as [i Hi].
  destruct (Forall2_lookup_l _ _ _ _ _ HF Hi) as (ob' & Hob' & En' & (ds' & Hds' & Hc') & _). apply elem_of_list_fmap. exists ob'. split; [|by eapply elem_of_list_lookup_2].
  assert (ds' = ds) as -> by congruence. rewrite <- Ex in Hc'. pose proof (coded_fun f ds x.1 _ _ Hc Hc') as E. destruct ob as [[n i1] v], ob' as [[n' i2] v']. cbn [fst snd] in *. congruence.
Qed.
Lemma NoDup_filter_fst (P : string * items_t * V -> Prop) `{!forall x, Decision (P x)} (l : list (string * items_t * V)) : NoDup l.*1 -> NoDup (filter P l).*1.
Proof.
  induction l as [|x l IH]; intros Hnd; [constructor|]. rewrite fmap_cons in Hnd. apply NoDup_cons in Hnd as [Hni Hnd]. rewrite filter_cons.
  destruct (decide (P x)); [|by apply IH]. rewrite fmap_cons. constructor; [|by apply IH]. intros (y & Ey & [_ Hy]%elem_of_list_filter)%elem_of_list_fmap.
  apply Hni, elem_of_list_fmap. by exists y.
Qed.
Theorem C74_rejects_hirm : forall o h f heldout r x r', orders_ok o -> hirm_heldout_logp parse o h f heldout r = Ok (x, r') ->
  (forall rel xs, heldout !! rel = Some xs -> is_Some (h_schema h !! rel) /\ NoDup xs.*1 /\ Forall (fun y => exists ob, scored_as parse f (hirm_domains h) rel y ob) xs).
Proof.
  intros o h f heldout r x r' Ho H rel xs Hxs. unfold hirm_heldout_logp in H. apply obind_Ok in H as (l & Hl & H).
  assert (all_scored hirm_ops parse f h heldout) as Hs by (apply (heldout_list_iff hirm_ops parse o); [done|by eexists]).
  destruct (Hs rel xs Hxs) as ([ds Hds] & _ & HF). split; [cbn in Hds; destruct (h_schema h !! rel); [by eexists|done]|]. split; [|done].
  pose proof (heldout_list_inv hirm_ops parse o h f heldout l Ho Hl rel) as HF2. rewrite Hxs in HF2. eapply scored_names; [exact HF2|]. clear HF2.
  destruct (filter (fun ob : string * items_t * V => ob.1.1 = rel) l) as [|ob k] eqn:Ek; [constructor|].
  assert (ob ∈ l /\ ob.1.1 = rel) as [Hob En]. { assert (ob ∈ ob :: k) as Hx by left. rewrite <- Ek in Hx. by apply elem_of_list_filter in Hx as [? ?]. }
  unfold hirm_logp in H. apply obind_Ok in H as (m & Hm & H). destruct (groups_spec h l ∅ m Hm) as [G1 G2].
  destruct (proj1 (Forall_forall _ _) G1 ob Hob) as [t Ht]. rewrite En in Ht. destruct (parts_spec h m _ _ _ _ _ H) as (ps & HP & _).
  assert (t ∈ o_ents o (dom m)) as Hint.
  { assert (o_ents o (dom m) ≡ₚ elements (dom m)) as -> by apply Ho. apply elem_of_elements, elem_of_dom. apply (G2 t). right. exists ob. split; [done|]. unfold in_cluster. by rewrite En. }
  apply elem_of_list_lookup in Hint as [i Hi]. destruct (Forall2_lookup_l _ _ _ _ _ HP Hi) as (p & _ & ir & r1 & r2 & _ & Hp).
  destruct (irm_logp_inv ir _ _ _ Hp) as [_ Hnd]. rewrite (proj1 (G2 t)), lookup_empty in Hnd. cbn [default app] in Hnd.
  rewrite <- Ek. apply (NoDup_filter_fst (fun ob : string * items_t * V => ob.1.1 = rel)) in Hnd.
  assert (filter (fun ob : string * items_t * V => ob.1.1 = rel) (filter (in_cluster h t) l) = filter (fun ob : string * items_t * V => ob.1.1 = rel) l) as <-; [|done].
  clear -Ht. induction l as [|x l IH]; [done|]. rewrite !filter_cons. destruct (decide (in_cluster h t x)) as [Hc|Hc], (decide (x.1.1 = rel)) as [E|E]; rewrite ?filter_cons; try (by rewrite ?decide_True, ?decide_False, ?IH by done).
  exfalso. apply Hc. unfold in_cluster. by rewrite E.
Qed.

Theorem C74_rejects_irm : forall o ir f heldout r x r', orders_ok o -> irm_heldout_logp parse o ir f heldout r = Ok (x, r') ->
  (forall rel xs, heldout !! rel = Some xs -> is_Some (i_schema ir !! rel) /\ NoDup xs.*1 /\ Forall (fun y => exists ob, scored_as parse f (irm_domains ir) rel y ob) xs).
Proof.
  intros o ir f heldout r x r' Ho H rel xs Hxs. unfold irm_heldout_logp in H. apply obind_Ok in H as (l & Hl & H).
  assert (all_scored irm_ops parse f ir heldout) as Hs by (apply (heldout_list_iff irm_ops parse o); [done|by eexists]).
  destruct (Hs rel xs Hxs) as ([ds Hds] & _ & HF). split; [cbn in Hds; destruct (i_schema ir !! rel); [by eexists|done]|]. split; [|done].
  pose proof (heldout_list_inv irm_ops parse o ir f heldout l Ho Hl rel) as HF2. rewrite Hxs in HF2. eapply scored_names; [exact HF2|].
  apply NoDup_filter_fst. by apply (irm_logp_inv ir l r _ H).
Qed.

(** An empty file: a HIRM gives it probability one, an IRM reads out of bounds. *)
Theorem C74_empty_hirm : forall o h f r, orders_ok o -> hirm_heldout_logp parse o h f ∅ r = Ok (Some 0%R, r).
Proof.
  intros o h f r Ho. assert (forall s : gset string, s = ∅ -> o_names o s = []) as En.
  { intros s ->. destruct (o_names o ∅) as [|x l] eqn:E; [done|]. assert (x ∈ o_names o ∅) as Hx by (rewrite E; left). by apply in_o_names in Hx. }
  unfold hirm_heldout_logp, heldout_list, encode_observations. rewrite (En (dom _)) by apply dom_empty_L. cbn [foldM obind].
  rewrite (En (dom _)) by apply dom_empty_L. cbn [foldM obind]. unfold hirm_logp. cbn [foldM obind].
  assert (o_ents o (dom (∅ : gmap Z (list (string * items_t * V)))) = []) as ->; [|done].
  rewrite dom_empty_L. assert (o_ents o (∅ : gset Z) ≡ₚ elements (∅ : gset Z)) as HP by apply Ho. rewrite elements_empty in HP.
  symmetry in HP. by apply Permutation_nil in HP.
Qed.
Theorem C74_empty_irm_refuted : forall o ir f r, orders_ok o -> irm_heldout_logp parse o ir f ∅ r = UB.
Proof.
  intros o ir f r Ho. assert (forall s : gset string, s = ∅ -> o_names o s = []) as En.
  { intros s ->. destruct (o_names o ∅) as [|x l] eqn:E; [done|]. assert (x ∈ o_names o ∅) as Hx by (rewrite E; left). by apply in_o_names in Hx. }
  unfold irm_heldout_logp, heldout_list, encode_observations. rewrite (En (dom _)) by apply dom_empty_L. cbn [foldM obind].
  rewrite (En (dom _)) by apply dom_empty_L. reflexivity.
Qed.
End Heldout.
Print Assumptions C74_scores_the_file_irm.
Print Assumptions C74_scores_the_file_hirm.
Print Assumptions C74_order_irm.
Print Assumptions C74_order_hirm.
Print Assumptions C74_succeeds_hirm.
Print Assumptions C74_succeeds_irm.
Print Assumptions C74_rejects_hirm.
Print Assumptions C74_rejects_irm.
Print Assumptions C74_empty_hirm.
Print Assumptions C74_empty_irm_refuted.

(** ** An example *)
(** Two relations in different clusters, trained on three observations and asked for two. *)
Definition C74_parse (rel : string) (value : string) : outcome bool := if decide (value = "1") then Ok true else if decide (value = "0") then Ok false else Throws.
Definition C74_train : observations := {[ "r" := [(["ann"; "x"], "1"); (["bob"; "x"], "0")]; "q" := [(["cy"], "1")] ]}.
Definition C74_heldout : observations := {[ "r" := [(["cy"; "x"], "1"); (["bob"; "y"], "0")]; "q" := [(["bob"], "0")] ]}.
Example C74_example : exists h0 q0 h a E y r', schema_lawful C15_schema /\ hirm_new C15_schema [0; 1] = Ok (h0, q0) /\ hirm_run h0 C62_calls h /\
  hirm_holds h a /\ hirm_scorable h /\ calculate_encoding some_orders (t_domains <$> h_schema h) (merge_observations C74_train C74_heldout) = Ok E /\
  hirm_heldout_logp C74_parse rev_orders h (enc_f E) C74_heldout [] = Ok (y, r').
Proof.
  destruct C62_example as (h0 & q0 & h & a & x & r' & HL & H0 & Hrun & Hh & Hsc & _).
  destruct (proj1 (hirm_new_spec C15_schema _ C15_schema_lawful) _ _ H0) as [([a0 Hh0] & _) Hs0].
  destruct (hirm_run_spec h0 C62_calls h Hrun a0 Hh0) as (_ & Hs & _).
  assert (h_schema h = <["q" := TClean ["d"] true tally_dist tt]> C15_schema) as Hsch by by rewrite Hs, Hs0.
  assert (h_schema h !! "r" = Some (TClean ["d"; "c"] true tally_dist tt)) as Hr. { rewrite Hsch, lookup_insert_ne by done. unfold C15_schema. by rewrite lookup_insert. }
  assert (h_schema h !! "q" = Some (TClean ["d"] true tally_dist tt)) as Hq by by rewrite Hsch, lookup_insert.
  assert (exists E, calculate_encoding some_orders (t_domains <$> h_schema h) (merge_observations C74_train C74_heldout) = Ok E) as [E HE].
  { apply C28_total; [apply some_orders_ok|]. intros rel l items v Hl Hin. destruct (proj2 (proj2 (C28_merged C74_train C74_heldout)) rel (items, v)) as [(l' & Hl' & Hi)|(l' & Hl' & Hi)]; [by exists l| |].
    - unfold C74_train in Hl'. apply lookup_insert_Some in Hl' as [[<- <-]|[_ [<- <-]%lookup_singleton_Some]]; rewrite lookup_fmap.
      + rewrite Hr. exists ["d"; "c"]. split; [done|]. apply elem_of_cons in Hi as [[= -> _]|[[= -> _]|Hi%elem_of_nil]%elem_of_cons]; [cbn; lia|cbn; lia|done].
      + rewrite Hq. exists ["d"]. split; [done|]. apply elem_of_list_singleton in Hi as [= -> _]. cbn. lia.
    - unfold C74_heldout in Hl'. apply lookup_insert_Some in Hl' as [[<- <-]|[_ [<- <-]%lookup_singleton_Some]]; rewrite lookup_fmap.
      + rewrite Hr. exists ["d"; "c"]. split; [done|]. apply elem_of_cons in Hi as [[= -> _]|[[= -> _]|Hi%elem_of_nil]%elem_of_cons]; [cbn; lia|cbn; lia|done].
      + rewrite Hq. exists ["d"]. split; [done|]. apply elem_of_list_singleton in Hi as [= -> _]. cbn. lia. }
  destruct (C74_succeeds_hirm C74_parse h a some_orders rev_orders C74_train C74_heldout E [] Hh Hsc some_orders_ok rev_orders_ok HE) as (y & r3 & Hy).
  - intros rel [l Hl]%elem_of_dom. apply elem_of_dom. unfold C74_heldout in Hl. apply lookup_insert_Some in Hl as [[<- _]|[_ [<- _]%lookup_singleton_Some]]; by eexists.
  - intros rel xs y Hl Hi. unfold C74_heldout in Hl. apply lookup_insert_Some in Hl as [[<- <-]|[_ [<- <-]%lookup_singleton_Some]].
    + exists ["d"; "c"], true, tally_dist, tt. apply elem_of_cons in Hi as [->|[->|Hi%elem_of_nil]%elem_of_cons]; [exists true|exists false|done]; (split; [exact Hr|]); (split; [done|]); (split; [done|]); intros s; by eexists.
    + exists ["d"], true, tally_dist, tt, false. apply elem_of_list_singleton in Hi as ->. split; [exact Hq|]. split; [done|]. split; [done|]. intros s. by eexists.
  - intros rel xs Hl. unfold C74_heldout in Hl. apply lookup_insert_Some in Hl as [[_ <-]|[_ [_ <-]%lookup_singleton_Some]]; by_compute.
  - exists h0, q0, h, a, E, y, r3. done.
Qed.
