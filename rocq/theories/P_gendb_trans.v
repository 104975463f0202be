(** What resampling the reference of an entity does to the observations in the HIRM. *)
From Coq Require Import String Ascii.
From stdpp Require Import gmap strings list sorting relations.
From Coq Require Import ZArith Reals Lia.
From Verif Require Import M_base M_math M_crp M_domain M_dist M_relation M_noisy M_irm M_logp M_hirm M_inference M_schema M_pclean_io M_gendb M_gendb_rels
  M_gendb_state M_pclean M_gendb_trans
  S_crp S_crp_state S_irm S_hirm S_gendb S_gendb_rels S_gendb_state P_base P_irm_schema P_hirm_move P_hirm_history P_gendb_data P_inference.
Local Open Scope nat_scope.

Section Steps.
Context {V : Type}.
Notation store := (gmap string (gmap items_t V)).
Implicit Types (h : hirm V) (a : any_rel V) (st : store).

(** The observations of a relation, and the stored ones. *)
Definition qd h (q : string) : gmap items_t V := from_option any_data ∅ (hirm_lookup h q).
Definition sd st (q : string) : gmap items_t V := default ∅ (st !! q).
Lemma sd_eq st st' q : st' !! q = st !! q -> sd st' q = sd st q.
Proof. unfold sd. by intros ->. Qed.

(** A step that leaves the observations of the relations of [P] alone. *)
Record hstep (P : string -> Prop) h h' : Prop := {
  hp_schema : h_schema h' = h_schema h;
  hp_code : h_code h' = h_code h;
  hp_as : forall n, match hirm_lookup h n, hirm_lookup h' n with
                    | Some a, Some a' => as_well a a'
                    | None, None => True
                    | _, _ => False
                    end;
  hp_data : forall n, P n -> qd h' n = qd h n;
}.
Lemma as_well_refl a : as_well a a. Proof. by split_and!. Qed.
Lemma hstep_refl P h : hstep P h h.
Proof. split; try done. intros n. destruct (hirm_lookup h n); [apply as_well_refl|done]. Qed.
Lemma hstep_trans P h1 h2 h3 : hstep P h1 h2 -> hstep P h2 h3 -> hstep P h1 h3.
Proof.
  intros [A1 A2 A3 A4] [B1 B2 B3 B4]. split; [congruence|congruence| |intros n Hn; rewrite B4, A4; done].
  intros n. specialize (A3 n). specialize (B3 n). destruct (hirm_lookup h1 n), (hirm_lookup h2 n), (hirm_lookup h3 n); try done.
  by eapply as_well_trans.
Qed.
Lemma hstep_weaken (P P' : string -> Prop) h h' : (forall n, P' n -> P n) -> hstep P h h' -> hstep P' h h'.
Proof. intros HP [A1 A2 A3 A4]. split; auto. Qed.
Lemma hstep_found P h h' n a : hstep P h h' -> hirm_lookup h n = Some a -> exists a', hirm_lookup h' n = Some a' /\ as_well a a'.
Proof. intros H Ha. pose proof (hp_as _ _ _ H n) as Hn. rewrite Ha in Hn. destruct (hirm_lookup h' n); [eauto|done]. Qed.
Lemma hstep_shaped P h h' : hstep P h h' -> shaped h -> shaped h'.
Proof.
  intros H Hs n a' Ha'. pose proof (hp_as _ _ _ H n) as Hn. rewrite Ha' in Hn. destruct (hirm_lookup h n) as [a|] eqn:Ha; [|done].
  destruct (Hs n a Ha) as (t & Ht & W). exists t. rewrite (hp_schema _ _ _ H). split; [done|]. by eapply as_well_well.
Qed.
Lemma hstep_coded P h h' : hstep P h h' -> coded h -> coded h'.
Proof.
  intros H [C1 C2]. unfold coded. rewrite (hp_code _ _ _ H). split; [done|]. intros n Hn. apply C2 in Hn as [a Ha].
  destruct (hstep_found _ _ _ _ _ H Ha) as (a' & -> & _). eauto.
Qed.

Lemma find_lookup h n W a : h_find h n = Ok (W, a) -> hirm_lookup h n = Some a.
Proof.
  unfold h_find. intros H. apply obind_Ok in H as (ir & Hir & H). apply obind_Ok in H as (a' & Ha%at_Ok & H). injection H as _ ->.
  unfold relation_to_irm in Hir. apply obind_Ok in Hir as (t & Ht%relation_to_table_Ok & Hir%at_Ok). apply hirm_lookup_iff. eauto.
Qed.
Lemma set_irm_step h n tb ir ir' a a' : table_of h n = Some tb -> h_irms h !! tb = Some ir -> hirm_lookup h n = Some a -> i_rels ir' = <[n := a']> (i_rels ir) -> as_well a a' ->
  let h' := h_set_irms h (<[tb := ir']> (h_irms h)) in hstep (fun m => m <> n) h h' /\ hirm_lookup h' n = Some a'.
Proof.
  intros Ht Hir Ha Hr Hw h'.
  assert (hirm_lookup h' n = Some a') as Hn by (unfold h'; rewrite set_irm_lookup, decide_True, Hr, lookup_insert; done).
  assert (forall m, m <> n -> hirm_lookup h' m = hirm_lookup h m) as Ho.
  { intros m Hm. unfold h'. rewrite set_irm_lookup. destruct (decide (table_of h m = Some tb)) as [Et|]; [|done].
    rewrite Hr, lookup_insert_ne by done. symmetry.
    destruct (i_rels ir !! m) as [y|] eqn:E; [apply hirm_lookup_iff; eauto|].
    destruct (hirm_lookup h m) as [y|] eqn:E'; [|done]. apply hirm_lookup_iff in E' as (tb' & ir2 & Et' & ? & ?). congruence. }
  split; [|done]. split; [done|done| |].
  - intros m. destruct (decide (m = n)) as [->|Hm]; [by rewrite Ha, Hn|]. rewrite Ho by done. destruct (hirm_lookup h m); [apply as_well_refl|done].
  - intros m Hm. unfold qd. by rewrite Ho.
Qed.
Lemma put_step h n W a a' h' : hirm_lookup h n = Some a -> h_put h n W a' = Ok h' -> as_well a a' ->
  hstep (fun m => m <> n) h h' /\ hirm_lookup h' n = Some a'.
Proof.
  intros Ha H Hw. unfold h_put in H. apply obind_Ok in H as (t & Ht%relation_to_table_Ok & H). apply obind_Ok in H as (ir & Hir%at_Ok & [= <-]).
  by eapply set_irm_step.
Qed.
Lemma domains_step P h code ir W : h_irms h !! code = Some ir -> hstep P h (h_set_irms h (<[code := i_set_domains ir W]> (h_irms h))).
Proof.
  intros Hir.
  assert (forall m, hirm_lookup (h_set_irms h (<[code := i_set_domains ir W]> (h_irms h))) m = hirm_lookup h m) as Ho.
  { intros m. rewrite set_irm_lookup. destruct (decide (table_of h m = Some code)) as [Et|]; [|done]. cbn [i_rels i_set_domains]. symmetry.
    destruct (i_rels ir !! m) as [y|] eqn:E; [apply hirm_lookup_iff; eauto|].
    destruct (hirm_lookup h m) as [y|] eqn:E'; [|done]. apply hirm_lookup_iff in E' as (tb' & ir2 & Et' & ? & ?). congruence. }
  split; [done|done| |].
  - intros m. rewrite Ho. destruct (hirm_lookup h m); [apply as_well_refl|done].
  - intros m _. unfold qd. by rewrite Ho.
Qed.

(** ** Relations *)
Lemma delete_well a a' l : any_type a' true = any_type a true -> any_data a' = delete l (any_data a) -> (coherent a -> coherent a') ->
  (forall d e l', l' <> l -> listed (any_data_r a) d e l' -> listed (any_data_r a') d e l') -> as_well a a'.
Proof.
  intros H1 H2 H3 H4. split_and!; [done|done|]. intros Hi l' j d e Hl Hd He. rewrite H2 in Hl. rewrite (type_doms _ _ _ H1) in Hd.
  destruct (decide (l' = l)) as [->|Hne]; [rewrite lookup_delete in Hl; by destruct Hl|]. rewrite lookup_delete_ne in Hl by done.
  apply H4; [done|]. by eapply Hi.
Qed.
Lemma any_cleanup_step lk a l a' : any_cleanup_data lk a l = Ok a' -> as_well a a' /\ any_data a' = delete l (any_data a).
Proof.
  destruct a as [D rel|n]; intros H; cbn [any_cleanup_data] in H.
  - apply obind_Ok in H as (rel' & H & [= <-]). unfold cleanup_data in H. apply obind_Ok in H as (idx & Hx & [= <-]). split; [|done].
    eapply delete_well; [done|done|done|]. intros d e l' Hne. by eapply cleanup_loop_listed.
  - apply obind_Ok in H as (b & _ & H). apply obind_Ok in H as (n' & H & [= <-]). unfold noisy_cleanup_data in H.
    apply obind_Ok in H as (rel' & H & H'). apply obind_Ok in H' as (m & _ & [= <-]). unfold cleanup_data in H. apply obind_Ok in H as (idx & Hx & [= <-]).
    split; [|done]. eapply delete_well; [done|done| |].
    + cbn. intros Hc. rewrite !dom_delete_L. by rewrite Hc.
    + intros d e l' Hne. by eapply cleanup_loop_listed.
Qed.
Lemma more_well a a' l v : one_more a a' l v -> as_well a a'.
Proof. intros [M1 M2 M3 M4]. split_and!; [apply M2|intros Hc; by apply M3|done]. Qed.
Lemma uncluster_step W a l a' : any_unincorporate_from_cluster W a l = Ok a' -> as_well a a' /\ any_data a' = any_data a.
Proof.
  intros H. pose proof (any_from_cluster_keeps W a l a' True H) as [Hw _]. split; [done|].
  destruct a as [D rel|n]; cbn [any_unincorporate_from_cluster] in H.
  - apply obind_Ok in H as (x & H & [= <-]). apply skel_from_cluster in H as [= ? ? ? ?]. done.
  - apply obind_Ok in H as (x & H & [= <-]). unfold noisy_unincorporate_from_cluster in H. by apply obind_Ok in H as (y & H & [= <-]).
Qed.
Lemma clusters_step a : as_well a (any_cleanup_clusters a) /\ any_data (any_cleanup_clusters a) = any_data a.
Proof. destruct a as [D rel|n]; (split; [|done]); by apply as_well_same. Qed.

Lemma qd_found h n a : hirm_lookup h n = Some a -> qd h n = any_data a.
Proof. unfold qd. by intros ->. Qed.

(** ** Taking observations out *)
Lemma take_out_ok h n l st lp h' st' : take_out h n l st = Ok (lp, h', st') ->
  hstep (fun m => m <> n) h h' /\ exists v, qd h n !! l = Some v /\ qd h' n = delete l (qd h n) /\ st' = store_put st n l v.
Proof.
  intros H. unfold take_out in H. apply obind_Ok in H as ([W a] & Hf%find_lookup & H). apply obind_Ok in H as (v & Hv & H).
  apply obind_Ok in H as (a1 & H1%uncluster_step & H). apply obind_Ok in H as (lp1 & _ & H). apply obind_Ok in H as (a2 & H2%any_cleanup_step & H).
  apply obind_Ok in H as (h1 & H3 & [= <- <- <-]). destruct H1 as [W1 D1], H2 as [W2 D2].
  destruct (put_step _ _ _ _ _ _ Hf H3) as [HS HL]; [by eapply as_well_trans|].
  unfold any_get_value in Hv. apply obind_Ok in Hv as (? & _ & Hv%at_Ok).
  split; [done|]. exists v. rewrite !(qd_found _ _ _ HL), (qd_found _ _ _ Hf). split_and!; [done|congruence|done].
Qed.
Lemma store_put_other st n l v q : q <> n -> store_put st n l v !! q = st !! q.
Proof. intros Hq. unfold store_put. by rewrite lookup_insert_ne. Qed.
Lemma store_put_this st n l v : sd (store_put st n l v) n = <[l := v]> (sd st n).
Proof. unfold sd, store_put. by rewrite lookup_insert. Qed.

Section Query.
Variable (Qf : string -> Prop).
(** No query field is the base of another relation. *)
Definition bases_ok (sch : gmap string (t_rel V)) : Prop := forall n t b, sch !! n = Some t -> t_base t = Some b -> ~ Qf b.

Lemma drop_chain_other fuel : forall h n l ind st lp h' st', ~ Qf n -> bases_ok (h_schema h) ->
  drop_chain fuel h n l ind st = Ok (lp, h', st') -> hstep Qf h h' /\ forall q, Qf q -> st' !! q = st !! q.
Proof.
  induction fuel as [|fuel IH]; intros h n l ind st lp h' st' Hn HB H; cbn [drop_chain] in H; [done|].
  apply obind_Ok in H as ([W a] & Hf & H). destruct (_ || _); [injection H as <- <- <-; split; [apply hstep_refl|done]|].
  apply obind_Ok in H as ([[lp1 h1] st1] & H1%take_out_ok & H). destruct H1 as [HS (v & _ & _ & ->)].
  assert (hstep Qf h h1) as HS' by (eapply hstep_weaken; [|exact HS]; by intros m Hm ->).
  assert (forall q, Qf q -> store_put st n l v !! q = st !! q) as Hst by (intros q Hq; apply store_put_other; by intros ->).
  apply obind_Ok in H as (t & Ht%at_Ok & H). rewrite (hp_schema _ _ _ HS) in Ht. destruct t as [|ds o E sp base]; [by injection H as <- <- <-|].
  apply obind_Ok in H as (bi & _ & H). apply obind_Ok in H as ([[lp2 h2] st2] & H2 & [= <- <- <-]).
  apply IH in H2 as [H2 H3]; [|by eapply HB|by rewrite (hp_schema _ _ _ HS)]. split; [by eapply hstep_trans|]. intros q Hq. rewrite H3 by done. auto.
Qed.
Lemma drop_chain_query fuel h n l ind st lp h' st' : Qf n -> bases_ok (h_schema h) -> ind < length l ->
  drop_chain fuel h n l ind st = Ok (lp, h', st') -> hstep (fun q => Qf q /\ q <> n) h h' /\ (forall q, Qf q -> q <> n -> st' !! q = st !! q) /\
  qd h' n = delete l (qd h n) /\ forall l', sd st' n !! l' = if decide (l' = l /\ is_Some (qd h n !! l)) then qd h n !! l else sd st n !! l'.
Proof.
  intros Hn HB Hlen H. destruct fuel as [|fuel]; cbn [drop_chain] in H; [done|].
  apply obind_Ok in H as ([W a] & Hf & H). apply find_lookup in Hf. destruct (_ || _) eqn:Eb.
  { injection H as <- <- <-. split; [apply hstep_refl|]. split; [done|].
    apply orb_true_iff in Eb as [Eb|Eb]; apply bool_decide_eq_true in Eb; [|lia].
    assert (qd h n !! l = None) as Hno by (rewrite (qd_found _ _ _ Hf); by apply not_elem_of_dom). split; [by rewrite delete_notin|].
    intros l'. rewrite decide_False; [done|]. intros [_ [? ?]]. congruence. }
  apply obind_Ok in H as ([[lp1 h1] st1] & H1%take_out_ok & H). destruct H1 as [HS (v & Hv & Hd & ->)].
  assert (hstep (fun q => Qf q /\ q <> n) h h1) as HS' by (eapply hstep_weaken; [|exact HS]; tauto).
  assert (forall l', sd (store_put st n l v) n !! l' = if decide (l' = l /\ is_Some (qd h n !! l)) then qd h n !! l else sd st n !! l') as Hsd.
  { intros l'. rewrite store_put_this. destruct (decide _) as [[-> _]|Hne]; [by rewrite lookup_insert|].
    rewrite lookup_insert_ne; [done|]. intros ->. apply Hne. eauto. }
  apply obind_Ok in H as (t & Ht%at_Ok & H). rewrite (hp_schema _ _ _ HS) in Ht. destruct t as [|ds o E sp base].
  { injection H as <- <- <-. split_and!; [done| |done|done]. intros q _ Hq. by apply store_put_other. }
  apply obind_Ok in H as (bi & _ & H). apply obind_Ok in H as ([[lp2 h2] st2] & H2 & [= <- <- <-]).
  apply drop_chain_other in H2 as [H2 H3]; [|by eapply HB|by rewrite (hp_schema _ _ _ HS)]. split_and!.
  - eapply hstep_trans; [exact HS'|]. eapply hstep_weaken; [|exact H2]. tauto.
  - intros q Hq Hne. rewrite H3 by done. by apply store_put_other.
  - by rewrite (hp_data _ _ _ H2).
  - intros l'. rewrite (sd_eq _ _ _ (H3 n Hn)). apply Hsd.
Qed.

(** [data'] and [s'] are [data] and [s] once the observations of [T] are moved from the
    former to the latter. *)
Definition taken (T : items_t -> Prop) (data s0 data' s' : gmap items_t V) : Prop :=
  forall l, (T l -> is_Some (data !! l) -> data' !! l = None /\ s' !! l = data !! l) /\
            (~ T l \/ data !! l = None -> data' !! l = data !! l /\ s' !! l = s0 !! l).
(** [touched i inds l]: one of the positions [inds] of [l] is [i]. *)
Definition touched (i : Z) (inds : list nat) (l : items_t) : Prop := Exists (fun ind => l !! ind = Some i) inds.
Global Instance touched_dec i inds l : Decision (touched i inds l).
Proof. unfold touched. apply _. Qed.

Lemma drop_relation_ok o c i h st q inds lp lp' h' st' : orders_ok o -> Qf q -> bases_ok (h_schema h) -> shaped h ->
  (forall t ind, h_schema h !! q = Some t -> ind ∈ inds -> t_domains t !! ind = Some c) ->
  drop_relation o c i (lp, h, st) (q, inds) = Ok (lp', h', st') ->
  hstep (fun n => Qf n /\ n <> q) h h' /\ (forall n, Qf n -> n <> q -> st' !! n = st !! n) /\
  taken (touched i inds) (qd h q) (sd st q) (qd h' q) (sd st' q).
Proof.
  intros Ho Hq HB Hsh Hinds H. unfold drop_relation in H. cbn [fst snd] in H. apply obind_Ok in H as ([W a] & Hf%find_lookup & H).
  apply obind_Ok in H as (m & Hm%at_Ok & H).
  destruct (Hsh q a Hf) as (t & Ht & Ety & Hco & Hix). pose proof (any_type_doms _ _ Ety) as Hdoms.
  assert (forall l, touched i inds l -> is_Some (qd h q !! l) -> exists s, m !! i = Some s /\ l ∈ s) as Hlist.
  { intros l Hl Hd. rewrite (qd_found _ _ _ Hf) in Hd. apply Exists_exists in Hl as (ind & Hin & Hl).
    destruct (Hix l ind c i Hd) as (m' & s & Hm' & Hs & Hl'); [rewrite Hdoms; eauto|done|]. assert (m' = m) as -> by congruence. eauto. }
  destruct (m !! i) as [items|] eqn:Em.
  2:{ injection H as <- <- <-. split; [apply hstep_refl|]. split; [done|]. intros l. split; [|done]. intros Hl Hd.
      destruct (Hlist l Hl Hd) as (s & Hs & _). discriminate. }
  set (inv (done_ : items_t -> Prop) (s : option R * hirm V * store) := hstep (fun n => Qf n /\ n <> q) h s.1.2 /\
    (forall n, Qf n -> n <> q -> s.2 !! n = st !! n) /\
    (forall l, (qd s.1.2 q !! l = qd h q !! l /\ sd s.2 q !! l = sd st q !! l) \/
               (touched i inds l /\ is_Some (qd h q !! l) /\ qd s.1.2 q !! l = None /\ sd s.2 q !! l = qd h q !! l)) /\
    (forall l, done_ l -> qd s.1.2 q !! l = None)).
  assert (forall dn ind s l s', ind ∈ inds -> inv dn s -> drop_item h q ind i s l = Ok s' -> inv (fun l' => dn l' \/ (l' = l /\ l !! ind = Some i)) s') as Hitem.
  { clear H. intros dn ind [[lp1 h1] st1] l s' Hin (I1 & I2 & I3 & I4) H. cbn [fst snd] in *. unfold drop_item in H. apply obind_Ok in H as (x & Hx%idx_Ok & H).
    case_bool_decide as Hxi; [subst x|].
    - apply obind_Ok in H as ([[lp2 h2] st2] & H & [= <-]).
      apply drop_chain_query in H as (D1 & D2 & D3 & D4); [|done|by rewrite (hp_schema _ _ _ I1)|by apply lookup_lt_is_Some; eauto].
      split_and!; cbn [fst snd].
      + by eapply hstep_trans.
      + intros n Hn Hne. rewrite D2 by done. auto.
      + intros l'. rewrite D4, D3. destruct (decide _) as [[-> Hs]|Hn].
        * right. destruct (I3 l) as [[E1 E2]|(_ & _ & E & _)]; [|rewrite E in Hs; by destruct Hs]. rewrite lookup_delete. rewrite E1 in Hs |- *.
          split_and!; [apply Exists_exists; eauto|done|done|done].
        * destruct (decide (l' = l)) as [->|Hne]; [|rewrite lookup_delete_ne by done; apply I3].
          rewrite lookup_delete. assert (qd h1 q !! l = None) as Hno by (destruct (qd h1 q !! l) eqn:E; [exfalso; apply Hn; eauto|done]).
          pose proof (I3 l) as I3l. by rewrite Hno in I3l.
      + intros l' [Hd|[-> _]]; rewrite D3; [|by rewrite lookup_delete].
        destruct (decide (l' = l)) as [->|Hne]; [by rewrite lookup_delete|]. rewrite lookup_delete_ne by done. auto.
    - injection H as <-. split_and!; [done|done|done|]. cbn [fst snd]. intros l' [Hd|[_ Hc]]; [auto|]. congruence. }
  assert (forall ls dn ind s s', ind ∈ inds -> inv dn s -> foldM (drop_item h q ind i) s ls = Ok s' -> inv (fun l' => dn l' \/ (l' ∈ ls /\ l' !! ind = Some i)) s') as Hitems.
  { clear H. induction ls as [|l ls IH]; intros dn ind s s' Hin HI H; cbn [foldM] in H.
    - injection H as <-. destruct HI as (? & ? & ? & I4). split_and!; [done|done|done|]. intros l [?|[Hl _]]; [auto|]. by apply elem_of_nil in Hl.
    - apply obind_Ok in H as (s1 & H1 & H). apply (Hitem dn) in H1; [|done|done]. apply (IH _ _ _ _ Hin H1) in H. destruct H as (? & ? & ? & I4).
      split_and!; [done|done|done|]. intros l' [?|[[->|Hl]%elem_of_cons Hi]]; apply I4; [left; by left|left; by right|by right]. }
  assert (forall js dn s s', (forall j, j ∈ js -> j ∈ inds) -> inv dn s -> foldM (fun s ind => foldM (drop_item h q ind i) s (o_vecs o items)) s js = Ok s' ->
    inv (fun l' => dn l' \/ (l' ∈ items /\ touched i js l')) s') as Hall.
  { clear H. induction js as [|j js IH]; intros dn s s' Hin HI H; cbn [foldM] in H.
    - injection H as <-. destruct HI as (? & ? & ? & I4). split_and!; [done|done|done|]. intros l [?|[_ Hl]]; [auto|]. by apply Exists_nil in Hl.
    - apply obind_Ok in H as (s1 & H1 & H). apply (Hitems _ dn) in H1; [|apply Hin; by left|done].
      eapply IH in H; [|intros; apply Hin; by right|exact H1]. destruct H as (? & ? & ? & I4).
      split_and!; [done|done|done|]. intros l' [?|[Hl Ht']]; apply I4; [left; by left|]. apply Exists_cons in Ht' as [Hi|Hr]; [left; right|by right].
      split; [|done]. destruct Ho as [Ho _]. rewrite Ho. by apply elem_of_elements. }
  apply (Hall inds (fun _ => False)) in H.
  - destruct H as (I1 & I2 & I3 & I4). cbn [fst snd] in *. split; [done|]. split; [done|]. intros l. split.
    + intros Hl Hd. destruct (Hlist l Hl Hd) as (s & [= <-] & Hls). specialize (I4 l (or_intror (conj Hls Hl))).
      destruct (I3 l) as [[E1 _]|(_ & _ & E1 & E2)]; [|done]. rewrite I4 in E1. rewrite <- E1 in Hd. by destruct Hd.
    + intros Hno. destruct (I3 l) as [?|(Hl & [w Hw] & _)]; [done|]. destruct Hno as [?|?]; [done|congruence].
  - done.
  - split_and!; cbn [fst snd]; [apply hstep_refl|done|by left|done].
Qed.

(** All relations. *)
Definition inds_ok c (inds : gmap string (list nat)) (sch : gmap string (t_rel V)) : Prop :=
  forall q js, inds !! q = Some js -> Qf q /\ forall t ind, sch !! q = Some t -> ind ∈ js -> t_domains t !! ind = Some c.
Definition positions (inds : gmap string (list nat)) (q : string) : list nat := default [] (inds !! q).
Lemma taken_none (T : items_t -> Prop) (data s0 : gmap items_t V) : (forall l, ~ T l) -> taken T data s0 data s0.
Proof. intros HT l. split; [intros Hl; by apply HT in Hl|done]. Qed.
Lemma sorted_entries_iff {A} (m : gmap string A) n x : (n, x) ∈ sorted_entries m <-> m !! n = Some x.
Proof.
  unfold sorted_entries. rewrite elem_of_list_omap. split.
  - intros (n' & _ & H). destruct (m !! n') as [y|] eqn:E; [|done]. by injection H as -> ->.
  - intros H. exists n. rewrite elem_of_sorted_names, H. eauto.
Qed.
Lemma sorted_entries_nodup {A} (m : gmap string A) : NoDup (sorted_entries m).*1.
Proof.
  unfold sorted_entries. pose proof (NoDup_sorted_names m) as Hnd. induction (sorted_names m) as [|n l IH]; [constructor|]. apply NoDup_cons in Hnd as [Hn Hnd].
  cbn. destruct (m !! n) as [x|]; cbn; [|auto]. constructor; [|auto]. rewrite elem_of_list_fmap. intros ([n' x'] & -> & Hin).
  apply elem_of_list_omap in Hin as (n2 & Hn2 & E). cbn in *. destruct (m !! n2); [|done]. injection E as -> _. done.
Qed.
Lemma drop_relations_ok o c i inds h st lp lp' h' st' : orders_ok o -> bases_ok (h_schema h) -> shaped h -> inds_ok c inds (h_schema h) ->
  foldM (drop_relation o c i) (lp, h, st) (sorted_entries inds) = Ok (lp', h', st') ->
  hstep (fun _ => False) h h' /\ forall q, Qf q -> taken (touched i (positions inds q)) (qd h q) (sd st q) (qd h' q) (sd st' q).
Proof.
  intros Ho HB Hsh Hin H.
  assert (forall l lp h0 st0 lp' h' st', NoDup l.*1 -> (forall p, p ∈ l -> inds !! p.1 = Some p.2) ->
    hstep (fun _ => False) h h0 ->
    foldM (drop_relation o c i) (lp, h0, st0) l = Ok (lp', h', st') ->
    hstep (fun _ => False) h h' /\ forall q, Qf q -> (q ∉ l.*1 -> qd h' q = qd h0 q /\ sd st' q = sd st0 q) /\
      (q ∈ l.*1 -> taken (touched i (positions inds q)) (qd h0 q) (sd st0 q) (qd h' q) (sd st' q))) as HG.
  { clear lp H h' st' lp' st. induction l as [|[q js] l IH]; intros lp h0 st0 lp' h' st' Hnd Hl Hs0 H; cbn [foldM] in H.
    - injection H as <- <- <-. split; [done|]. intros q Hq. split; [done|]. intros Hx. by apply elem_of_nil in Hx.
    - apply obind_Ok in H as ([[lp1 h1] st1] & H1 & H). cbn in Hnd. apply NoDup_cons in Hnd as [Hni Hnd].
      pose proof (Hl (q, js) (elem_of_list_here _ _)) as Hq. cbn in Hq. destruct (Hin q js Hq) as [HQ Hdom].
      apply drop_relation_ok in H1 as (D1 & D2 & D3); [|done|done|by rewrite (hp_schema _ _ _ Hs0)|by eapply hstep_shaped|].
      2:{ intros t ind. rewrite (hp_schema _ _ _ Hs0). apply Hdom. }
      assert (hstep (fun _ => False) h h1) as Hs1 by (eapply hstep_trans; [exact Hs0|]; eapply hstep_weaken; [|exact D1]; done).
      apply IH in H as [I1 I2]; [|done|intros p Hp; apply Hl; by right|done]. split; [done|]. intros n Hn. cbn [fmap list_fmap fst]. destruct (I2 n Hn) as [J1 J2]. split.
      + intros [Hne Hnl]%not_elem_of_cons. destruct (J1 Hnl) as [-> ->]. rewrite (hp_data _ _ _ D1) by done. split; [done|]. apply sd_eq. auto.
      + intros [->|Hnl]%elem_of_cons.
        * destruct (J1 Hni) as [-> ->]. unfold positions. by rewrite Hq.
        * assert (n <> q) as Hne by (intros ->; done). rewrite <- (hp_data _ _ _ D1 n) by done. rewrite <- (sd_eq _ _ _ (D2 n Hn Hne)). auto. }
  apply HG in H as [H1 H2]; [|apply sorted_entries_nodup|intros [n x]; apply sorted_entries_iff|apply hstep_refl].
  split; [done|]. intros q Hq. destruct (H2 q Hq) as [J1 J2]. destruct (decide (q ∈ (sorted_entries inds).*1)) as [Hin'|Hni]; [auto|].
  destruct (J1 Hni) as [-> ->]. apply taken_none. intros l Hl. unfold positions in Hl. destruct (inds !! q) as [js|] eqn:E; [|by apply Exists_nil in Hl].
  apply Hni, elem_of_list_fmap. exists (q, js). split; [done|]. by apply sorted_entries_iff.
Qed.

(** ** Leaving domains *)
Lemma leave_domain_ok P o refs lks n fuel : forall lp h un e ind lp' h' un',
  leave_domain fuel o refs lks n (lp, h, un) e ind = Ok (lp', h', un') -> hstep P h h'.
Proof.
  induction fuel as [|fuel IH]; intros lp h un e ind lp' h' un' H; cbn [leave_domain] in H; [done|].
  apply obind_Ok in H as (code & _ & H). apply obind_Ok in H as (ir & Hir%at_Ok & H). apply obind_Ok in H as (t & _ & H).
  apply obind_Ok in H as (c & _ & H). apply obind_Ok in H as (d & _ & H). case_bool_decide as Hbd; [injection H as <- <- <-; apply hstep_refl|].
  apply obind_Ok in H as (b & _ & H). destruct (_ || _); [injection H as <- <- <-; apply hstep_refl|].
  apply obind_Ok in H as (cl & _ & H). apply obind_Ok in H as (d1 & _ & H). apply obind_Ok in H as (l & _ & H).
  pose proof (domains_step P h code ir (<[c := d1]> (i_domains ir)) Hir) as HS.
  assert (forall un1 fs lp1 lp2 h2 un2 m, foldM (ancestors_of_link (leave_domain fuel o refs lks n) refs c e m)
    (lp1, h_set_irms h (<[code := i_set_domains ir (<[c := d1]> (i_domains ir))]> (h_irms h)), un1) fs = Ok (lp2, h2, un2) -> hstep P h h2) as Hf.
  { intros un1 fs lp1 lp2 h2 un2 m Hf. apply (foldM_inv _ (fun s : option R * hirm V * _ => hstep P h s.1.2)) in Hf; [done|done|].
    intros [[lp3 h3] un3] f [[lp4 h4] un4] _ Hs Hx. cbn [fst snd] in *. unfold ancestors_of_link in Hx. apply obind_Ok in Hx as (j & _ & Hx).
    apply obind_Ok in Hx as (mc & _ & Hx). apply obind_Ok in Hx as (x & _ & Hx). eapply hstep_trans; [exact Hs|]. by eapply IH. }
  destruct (lks !! n) as [r|]; [|by injection H as <- <- <-]. destruct (r !! ind) as [m|]; [|by injection H as <- <- <-]. by eapply Hf.
Qed.
Lemma leave_relations_ok P o refs lks f x l lp h un lp' h' un' :
  foldM (leave_relation o refs lks f x) (lp, h, un) l = Ok (lp', h', un') -> hstep P h h'.
Proof.
  intros H. apply (foldM_inv _ (fun s : option R * hirm V * _ => hstep P h s.1.2)) in H; [done|apply hstep_refl|].
  intros [[lp1 h1] un1] p [[lp2 h2] un2] _ Hs Hx. cbn [fst snd] in *. unfold leave_relation in Hx.
  apply (foldM_inv _ (fun s : option R * hirm V * _ => hstep P h s.1.2)) in Hx; [done|done|].
  intros [[lp3 h3] un3] d [[lp4 h4] un4] _ Hs3 Hy. cbn [fst snd] in *. apply obind_Ok in Hy as (r & _ & Hy). apply obind_Ok in Hy as (m & _ & Hy).
  apply obind_Ok in Hy as (j & _ & Hy). eapply hstep_trans; [exact Hs3|]. by eapply leave_domain_ok.
Qed.
Lemma unincorporate_reference_ok o g inds c f i st un lp g' st' un' : orders_ok o -> bases_ok (h_schema (g_hirm g)) -> shaped (g_hirm g) ->
  inds_ok c inds (h_schema (g_hirm g)) -> unincorporate_reference o g inds c f i st un = Ok (lp, g', st', un') ->
  g' = g_set g (g_ents g) (g_hirm g') /\ hstep (fun _ => False) (g_hirm g) (g_hirm g') /\
  forall q, Qf q -> taken (touched i (positions inds q)) (qd (g_hirm g) q) (sd st q) (qd (g_hirm g') q) (sd st' q).
Proof.
  intros Ho HB Hsh Hin H. unfold unincorporate_reference in H. apply obind_Ok in H as ([[lp1 h1] st1] & H1 & H). apply obind_Ok in H as (x & _ & H).
  apply obind_Ok in H as ([[lp2 h2] un2] & H2 & [= <- <- <- <-]). apply drop_relations_ok in H1 as [D1 D2]; [|done..].
  pose proof (leave_relations_ok (fun _ => False) _ _ _ _ _ _ _ _ _ _ _ _ H2) as L1.
  pose proof (leave_relations_ok (fun _ => True) _ _ _ _ _ _ _ _ _ _ _ _ H2) as L2. cbn [g_hirm g_set]. split_and!.
  - done.
  - by eapply hstep_trans.
  - intros q Hq. rewrite (hp_data _ _ _ L2 q) by done. auto.
Qed.

(** ** Relations of other classes *)
Lemma drop_single_ok e fuel : forall h n l st lp h' st', ~ Qf n -> bases_ok (h_schema h) ->
  drop_single fuel e h n l st = Ok (lp, h', st') -> hstep Qf h h' /\ forall q, Qf q -> st' !! q = st !! q.
Proof.
  induction fuel as [|fuel IH]; intros h n l st lp h' st' Hn HB H; cbn [drop_single] in H; [done|].
  apply obind_Ok in H as (t & Ht%at_Ok & H). apply obind_Ok in H as ([W a] & _ & H).
  case_bool_decide as Hbd0; [injection H as <- <- <-; split; [apply hstep_refl|done]|].
  apply obind_Ok in H as (c & _ & H). apply obind_Ok in H as (crp & _ & H). apply obind_Ok in H as (k & _ & H).
  case_bool_decide as Hbd; [injection H as <- <- <-; split; [apply hstep_refl|done]|].
  apply obind_Ok in H as ([[lp1 h1] st1] & H1%take_out_ok & H). destruct H1 as [HS (v & _ & _ & ->)].
  assert (hstep Qf h h1) as HS' by (eapply hstep_weaken; [|exact HS]; by intros m Hm ->).
  assert (forall q, Qf q -> store_put st n l v !! q = st !! q) as Hst by (intros q Hq; apply store_put_other; by intros ->).
  destruct t as [|ds o E sp base]; [by injection H as <- <- <-|].
  apply obind_Ok in H as (bi & _ & H). apply obind_Ok in H as ([[lp2 h2] st2] & H2 & [= <- <- <-]).
  apply IH in H2 as [H2 H3]; [|by eapply HB|by rewrite (hp_schema _ _ _ HS)]. split; [by eapply hstep_trans|]. intros q Hq. rewrite H3 by done. auto.
Qed.
Lemma single_drops_ok g e x ns h st lp lp' h' st' : (forall n, n ∈ ns -> ~ Qf n) -> bases_ok (h_schema h) ->
  foldM (single_drop g e x) (lp, h, st) ns = Ok (lp', h', st') -> hstep Qf h h' /\ forall q, Qf q -> st' !! q = st !! q.
Proof.
  intros Hns HB H. apply (foldM_inv _ (fun s : option R * hirm V * store => hstep Qf h s.1.2 /\ forall q, Qf q -> s.2 !! q = st !! q)) in H; [done|split; [apply hstep_refl|done]|].
  intros [[lp1 h1] st1] n [[lp2 h2] st2] Hn [I1 I2] Hx. cbn [fst snd] in *. unfold single_drop in Hx. apply obind_Ok in Hx as (l & _ & Hx).
  apply obind_Ok in Hx as ([[lp3 h3] st3] & Hx & [= <- <- <-]). apply drop_single_ok in Hx as [J1 J2]; [|by apply Hns|by rewrite (hp_schema _ _ _ I1)].
  split; [by eapply hstep_trans|]. intros q Hq. rewrite J2 by done. auto.
Qed.
Lemma single_leaves_ok P o g e x ns h un lp lp' h' un' : foldM (single_leave o g e x) (lp, h, un) ns = Ok (lp', h', un') -> hstep P h h'.
Proof.
  intros H. apply (foldM_inv _ (fun s : option R * hirm V * _ => hstep P h s.1.2)) in H; [done|apply hstep_refl|].
  intros [[lp1 h1] un1] n [[lp2 h2] un2] _ I1 Hx. cbn [fst snd] in *. unfold single_leave in Hx. apply obind_Ok in Hx as (l & _ & Hx).
  apply obind_Ok in Hx as (k & _ & Hx). eapply hstep_trans; [exact I1|]. by eapply leave_domain_ok.
Qed.
Lemma sample_relation_step fuel : forall h n l r v h' r', ~ Qf n -> bases_ok (h_schema h) ->
  hirm_sample_relation fuel h n l r = Ok (v, h', r') -> hstep Qf h h'.
Proof.
  induction fuel as [|fuel IH]; intros h n l r v h' r' Hn HB H; cbn [hirm_sample_relation] in H; [done|].
  apply obind_Ok in H as (t & Ht%at_Ok & H). apply obind_Ok in H as ([h1 r1] & Hb & H).
  assert (hstep Qf h h1) as HS.
  { destruct t as [|ds o E sp base] eqn:Et; [injection Hb as <- <-; apply hstep_refl|].
    apply obind_Ok in Hb as (a & Ha & Hb). apply obind_Ok in Hb as (nr & Hnr & Hb). apply obind_Ok in Hb as (b & Hbo & Hb).
    apply obind_Ok in Hb as (bi & Hbi & Hb). case_bool_decide as Ed; [injection Hb as <- <-; apply hstep_refl|].
    apply obind_Ok in Hb as ([[v2 h2] r2] & Hb & E2). injection E2 as <- <-. eapply IH; [|done|exact Hb]. by eapply HB. }
  eapply hstep_trans; [exact HS|].
  apply obind_Ok in H as (tb & Htb%relation_to_table_Ok & H). apply obind_Ok in H as (ir & Hir%at_Ok & H). apply obind_Ok in H as (a & Ha%at_Ok & H).
  apply obind_Ok in H as ([[[v1 W] a'] r2] & Hs & H). injection H as <- <- <-. apply any_sample_more, more_well in Hs.
  eapply hstep_weaken; [|eapply (set_irm_step h1 n tb ir _ a a' Htb Hir); [apply hirm_lookup_iff; eauto|done|done]].
  by intros m Hm ->.
Qed.
Lemma new_rows_ok g e x ns h r h' r' : (forall n, n ∈ ns -> ~ Qf n) -> bases_ok (h_schema h) ->
  foldM (new_row_step g e x) (h, r) ns = Ok (h', r') -> hstep Qf h h'.
Proof.
  intros Hns HB H. apply (foldM_inv _ (fun s : hirm V * rng => hstep Qf h s.1)) in H; [done|apply hstep_refl|].
  intros [h1 r1] n [h2 r2] Hn I1 Hx. cbn [fst snd] in *. unfold new_row_step in Hx. apply obind_Ok in Hx as (l & _ & Hx). apply obind_Ok in Hx as (a & _ & Hx).
  case_bool_decide as Hbd; [by injection Hx as <- <-|]. apply obind_Ok in Hx as ([[v h3] r3] & Hx & [= <- <-]).
  eapply hstep_trans; [exact I1|]. eapply sample_relation_step; [|by rewrite (hp_schema _ _ _ I1)|exact Hx]. auto.
Qed.

(** ** Putting observations back *)
Lemma enter_item_ok n data h r l h' r' : enter_item n data (h, r) l = Ok (h', r') ->
  hstep (fun m => m <> n) h h' /\ forall l', qd h' n !! l' = if decide (l' = l /\ qd h n !! l = None) then data !! l else qd h n !! l'.
Proof.
  intros H. unfold enter_item in H. apply obind_Ok in H as (v & Hv%at_Ok & H). apply obind_Ok in H as ([W a] & Hf%find_lookup & H).
  case_bool_decide as Hd.
  - injection H as <- <-. split; [apply hstep_refl|]. intros l'. rewrite decide_False; [done|]. intros [-> Hn]. rewrite (qd_found _ _ _ Hf) in Hn.
    apply elem_of_dom in Hd as [? ?]. congruence.
  - apply obind_Ok in H as ([[W1 a1] r1] & Hi & H). apply obind_Ok in H as (h1 & Hp & [= <- <-]). apply any_incorporate_more in Hi.
    destruct (put_step _ _ _ _ _ _ Hf Hp (more_well _ _ _ _ Hi)) as [HS HL]. split; [done|]. intros l'.
    rewrite (qd_found _ _ _ HL), (om_data _ _ _ _ Hi), (qd_found _ _ _ Hf). apply not_elem_of_dom in Hd. rewrite Hd, Hv.
    destruct (decide _) as [[-> _]|Hn]; [by rewrite lookup_insert|]. rewrite lookup_insert_ne; [done|]. intros ->. by apply Hn.
Qed.
Lemma enter_items_ok n data : forall ls h r h' r', foldM (enter_item n data) (h, r) ls = Ok (h', r') ->
  hstep (fun m => m <> n) h h' /\ forall l', qd h' n !! l' = if decide (l' ∈ ls /\ qd h n !! l' = None) then data !! l' else qd h n !! l'.
Proof.
  induction ls as [|l ls IH]; intros h r h' r' H; cbn [foldM] in H.
  - injection H as <- <-. split; [apply hstep_refl|]. intros l'. rewrite decide_False; [done|]. intros [Hl _]. by apply elem_of_nil in Hl.
  - apply obind_Ok in H as ([h1 r1] & H1%enter_item_ok & H). destruct H1 as [S1 D1]. apply IH in H as [S2 D2]. split; [by eapply hstep_trans|].
    intros l'. rewrite D2, D1. pose proof (elem_of_cons ls l' l) as Hc. destruct (decide (l' = l /\ qd h n !! l = None)) as [[-> Hn]|Hn].
    + rewrite (decide_True (P := l ∈ l :: ls /\ _)); [|tauto]. by destruct (decide _).
    + destruct (decide (l' ∈ ls /\ qd h n !! l' = None)) as [[? ?]|Hn2]; [rewrite decide_True; tauto|]. rewrite decide_False; [done|].
      intros [[->|?]%Hc ?]; tauto.
Qed.
Lemma enter_chain_other o st fuel : forall h r n h' r', ~ Qf n -> bases_ok (h_schema h) ->
  enter_chain fuel o st (h, r) n = Ok (h', r') -> hstep Qf h h'.
Proof.
  induction fuel as [|fuel IH]; intros h r n h' r' Hn HB H; cbn [enter_chain fst] in H; [done|].
  apply obind_Ok in H as (t & Ht%at_Ok & H). apply obind_Ok in H as ([h1 r1] & H1 & H). apply obind_Ok in H as (data & _ & H).
  assert (hstep Qf h h1) as S1.
  { destruct t as [|ds o' E sp base]; [injection H1 as <- <-; apply hstep_refl|]. case_bool_decide as Hbd; [|injection H1 as <- <-; apply hstep_refl].
    eapply IH; [|done|exact H1]. by eapply HB. }
  eapply hstep_trans; [exact S1|]. apply enter_items_ok in H as [S2 _]. eapply hstep_weaken; [|exact S2]. by intros m Hm ->.
Qed.
Lemma enter_chain_query o st fuel h r n h' r' : orders_ok o -> Qf n -> bases_ok (h_schema h) ->
  enter_chain fuel o st (h, r) n = Ok (h', r') -> hstep (fun q => Qf q /\ q <> n) h h' /\ qd h' n = qd h n ∪ sd st n.
Proof.
  intros Ho Hn HB H. destruct fuel as [|fuel]; cbn [enter_chain fst] in H; [done|].
  apply obind_Ok in H as (t & Ht%at_Ok & H). apply obind_Ok in H as ([h1 r1] & H1 & H). apply obind_Ok in H as (data & Hd%at_Ok & H).
  assert (hstep Qf h h1) as S1.
  { destruct t as [|ds o' E sp base]; [injection H1 as <- <-; apply hstep_refl|]. case_bool_decide as Hbd; [|injection H1 as <- <-; apply hstep_refl].
    eapply enter_chain_other; [|done|exact H1]. by eapply HB. }
  apply enter_items_ok in H as [S2 D2]. split.
  - eapply hstep_trans; [eapply hstep_weaken; [|exact S1]; tauto|]. eapply hstep_weaken; [|exact S2]. tauto.
  - apply map_eq. intros l. rewrite D2, (hp_data _ _ _ S1 n Hn). unfold sd. rewrite Hd. cbn [default from_option].
    rewrite lookup_union. assert (l ∈ o_vecs o (dom data) <-> is_Some (data !! l)) as Hin.
    { destruct Ho as [Ho _]. by rewrite (Ho (dom data)), elem_of_elements, elem_of_dom. }
    destruct (qd h n !! l) as [x|] eqn:E1, (data !! l) as [y|] eqn:E2; cbn; destruct (decide _) as [[Hx ?]|Hx]; rewrite ?E2; try done.
    all: exfalso; first [apply Hx; split; [apply Hin; eauto|done]|apply Hin in Hx; by destruct Hx].
Qed.
Lemma incorporate_reference_ok (Qdec : forall q, Decision (Qf q)) o h st r h' r' : orders_ok o -> bases_ok (h_schema h) -> incorporate_reference o h st r = Ok (h', r') ->
  hstep (fun _ => False) h h' /\ forall q, Qf q -> qd h' q = qd h q ∪ sd st q.
Proof.
  intros Ho HB H. unfold incorporate_reference in H.
  assert (forall ns h0 r0 h' r', NoDup ns -> hstep (fun _ => False) h h0 -> foldM (enter_chain (S (size (h_schema h))) o st) (h0, r0) ns = Ok (h', r') ->
    hstep (fun _ => False) h h' /\ forall q, Qf q -> qd h' q = qd h0 q ∪ (if decide (q ∈ ns) then sd st q else ∅)) as HG.
  { clear H h' r'. induction ns as [|n ns IH]; intros h0 r0 h' r' Hnd S0 H; cbn [foldM] in H.
    - injection H as <- <-. split; [done|]. intros q Hq. by rewrite decide_False, (right_id_L ∅ (∪)) by apply not_elem_of_nil.
    - apply obind_Ok in H as ([h1 r1] & H1 & H). apply NoDup_cons in Hnd as [Hni Hnd].
      assert (bases_ok (h_schema h0)) as HB0 by (by rewrite (hp_schema _ _ _ S0)).
      assert (hstep (fun q => Qf q /\ q <> n) h0 h1 /\ (Qf n -> qd h1 n = qd h0 n ∪ sd st n)) as [S1 D1].
      { destruct (Qdec n) as [Hn|Hn].
        - apply enter_chain_query in H1 as [? ?]; done.
        - apply enter_chain_other in H1; [|done|done]. split; [|done]. eapply hstep_weaken; [|exact H1]. tauto. }
      apply IH in H as [S2 D2]; [|done|eapply hstep_trans; [exact S0|]; eapply hstep_weaken; [|exact S1]; done].
      split; [done|]. intros q Hq. rewrite D2 by done. destruct (decide (q = n)) as [->|Hne].
      + rewrite D1 by done. rewrite (decide_False (P := n ∈ ns)), (decide_True (P := n ∈ n :: ns)), (right_id_L ∅ (∪)); [done|by left|done].
      + rewrite (hp_data _ _ _ S1 q) by done. f_equal. destruct (decide (q ∈ ns)); [rewrite decide_True; [done|by right]|].
        rewrite decide_False; [done|]. by apply not_elem_of_cons. }
  apply HG in H as [H1 H2]; [|apply NoDup_sorted_names|apply hstep_refl]. split; [done|]. intros q Hq. rewrite H2 by done. f_equal.
  destruct (decide _) as [|Hn]; [done|]. rewrite elem_of_sorted_names in Hn. unfold sd. destruct (st !! q); [|done]. exfalso. eauto.
Qed.

(** ** The rest *)
Lemma hirm_cleanup_ok P h h' : hirm_cleanup h = Ok h' -> hstep P h h'.
Proof.
  intros H. unfold hirm_cleanup in H. apply (foldM_inv _ (fun x => hstep P h x)) in H; [done|apply hstep_refl|].
  intros h1 n h2 _ I1 Hx. eapply hstep_trans; [exact I1|]. apply obind_Ok in Hx as (a & Ha & Hx).
  assert (hirm_lookup h1 n = Some a) as Hl by (unfold hirm_lookup; by rewrite Ha).
  unfold h_set_rel in Hx. apply obind_Ok in Hx as (tb & Htb%relation_to_table_Ok & Hx). apply obind_Ok in Hx as (ir & Hir%at_Ok & [= <-]).
  destruct (clusters_step a) as [W E].
  destruct (set_irm_step h1 n tb ir (i_set_rel ir n (any_cleanup_clusters a)) a (any_cleanup_clusters a) Htb Hir Hl eq_refl W) as [[A1 A2 A3 A4] HL].
  split; [done|done|done|]. intros m _. destruct (decide (m = n)) as [->|Hne]; [|auto]. by rewrite (qd_found _ _ _ HL), (qd_found _ _ _ Hl).
Qed.
Lemma enter_seats_ok P un l h r h' r' : foldM (enter_seat un) (h, r) l = Ok (h', r') -> hstep P h h'.
Proof.
  intros H. apply (foldM_inv _ (fun s : hirm V * rng => hstep P h s.1)) in H; [done|apply hstep_refl|].
  intros [h1 r1] [[code c] e] [h2 r2] _ I1 Hx. cbn [fst snd] in *. eapply hstep_trans; [exact I1|]. unfold enter_seat in Hx.
  apply obind_Ok in Hx as (cl & _ & Hx). apply obind_Ok in Hx as (ir & Hir%at_Ok & Hx). apply obind_Ok in Hx as (d & _ & Hx).
  case_bool_decide as Hbd; [injection Hx as <- <-; apply hstep_refl|]. apply obind_Ok in Hx as ([d1 r3] & _ & [= <- <-]). by apply domains_step.
Qed.
End Query.
End Steps.
