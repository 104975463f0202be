(** Sampling from a HIRM, relation by relation. *)
From stdpp Require Import gmap strings list relations.
From Coq Require Import ZArith Reals Lia.
From Verif Require Import M_base M_math M_crp M_domain M_dist M_relation M_noisy M_irm M_hirm S_crp S_crp_state S_relation S_irm S_hirm
  P_base P_crp P_domain P_hirm P_hirm_move P_hirm_trans P_hirm_history P_hirm_ctor P_load_models S_sample P_sample P_sample_crp.

Section Hirm.
Context {V : Type}.
Implicit Types h : hirm V.

Definition as_obs (name : string) (p : items_t * V) : string * items_t * V := (name, p.1, p.2).

Lemma rounds_spec fuel P : forall h a name ds n m r l h' m' r', hirm_holds h a -> schema_draws_keep (h_schema h) -> seats_all P m ->
  sample_rounds fuel h name ds n m r = Ok (l, h', m', r') ->
  length l = n /\ seats_all P m' /\ Forall (fun p => Forall2 P ds p.1) l /\
  exists xs, incorporates h xs h' /\ (as_obs name <$> l) `sublist_of` xs /\
    forall x, x ∈ xs -> exists p, p ∈ l /\ chain (h_schema h) (name, p.1) x.1.
Proof.
  induction fuel as [|fuel IH]; intros h a name ds n m r l h' m' r' Hh HD Hm H; destruct n as [|n]; cbn [sample_rounds] in H; try done.
  1, 2: injection H as <- <- <- <-; split; [done|]; split; [done|]; split; [done|]; exists []; split; [constructor|]; split; [done|]; intros x Hx; by apply elem_of_nil in Hx.
  apply obind_Ok in H as ([[[es ps] m1] r1] & Hdr & H). apply obind_Ok in H as (x & Hx & H).
  destruct (draw_seats_all P m ds r es ps m1 r1 Hm Hdr) as (Hlen & HF & Hm1 & Hu). case_bool_decide.
  { apply obind_Ok in H as (m2 & Hm2 & H). exact (IH h a name ds (S n) m2 r1 l h' m' r' Hh HD (Hu _ Hm2) H). }
  apply obind_Ok in H as ([[v h1] r2] & Hs & H). apply obind_Ok in H as ([[[l1 h2] m2] r3] & Hr & H). injection H as <- <- <- <-.
  destruct (sample_relation_incorporates _ h a name es r1 v h1 r2 Hh HD Hs) as (anc & Hanc & Hch).
  destruct (incorporates_holds h a _ h1 Hh Hanc) as (Hh1 & (Hs1 & _) & _).
  destruct (IH h1 a name ds n m1 r2 l1 h2 m2 r3 Hh1 ltac:(by rewrite Hs1) Hm1 Hr) as (I1 & I2 & I3 & xs & I4 & I5 & I6).
  split; [cbn; lia|]. split; [done|]. split; [by constructor|]. exists ((anc ++ [(name, es, v)]) ++ xs).
  split; [by eapply incorporates_app|]. split.
  - rewrite fmap_cons. change (as_obs name (es, v) :: (as_obs name <$> l1)) with ([as_obs name (es, v)] ++ (as_obs name <$> l1)).
    apply sublist_app; [|done]. by apply sublist_inserts_l.
  - intros y [[Hy|Hy]%elem_of_app|Hy]%elem_of_app.
    + exists (es, v). split; [left|]. apply tc_rtc. exact (proj1 (Forall_forall _ _) Hch y Hy).
    + apply elem_of_list_singleton in Hy as ->. exists (es, v). split; [left|]. apply rtc_refl.
    + destruct (I6 y Hy) as (p & Hp & Hc). exists p. split; [by right|]. by rewrite <- Hs1.
Qed.

Lemma leaves_spec fuel P n names : NoDup names -> forall obs h a m r obs' h' m' r', hirm_holds h a -> schema_draws_keep (h_schema h) -> seats_all P m ->
  foldM (sample_leaf fuel n) (obs, h, m, r) names = Ok (obs', h', m', r') ->
  seats_all P m' /\
  (forall name, name ∉ names \/ name ∈ dom (h_b2n h) \/ n = 0 -> obs' !! name = obs !! name) /\
  exists xs, incorporates h xs h' /\
    (forall name, name ∈ names -> name ∉ dom (h_b2n h) -> n <> 0 -> exists t l, h_schema h !! name = Some t /\ obs' !! name = Some l /\ length l = n /\
      Forall (fun p => Forall2 P (t_domains t) p.1) l /\ (as_obs name <$> l) `sublist_of` xs) /\
    forall x, x ∈ xs -> exists name l p, name ∈ names /\ name ∉ dom (h_b2n h) /\ obs' !! name = Some l /\ p ∈ l /\ chain (h_schema h) (name, p.1) x.1.
Proof.
  induction 1 as [|name names Hn Hnames IH]; intros obs h a m r obs' h' m' r' Hh HD Hm H; cbn [foldM] in H.
  { injection H as <- <- <- <-. split; [done|]. split; [done|]. exists []. split; [constructor|].
    split; [intros name Hin; by apply elem_of_nil in Hin|intros x Hx; by apply elem_of_nil in Hx]. }
  apply obind_Ok in H as ([[[obs1 h1] m1] r1] & Hl & H). unfold sample_leaf in Hl. case_bool_decide as Hb.
  - injection Hl as <- <- <- <-. destruct (IH obs h a m r obs' h' m' r' Hh HD Hm H) as (I1 & I2 & xs & I3 & I4 & I5).
    split; [done|]. split.
    { intros name' Hc. apply I2. destruct Hc as [Hc|[Hc|Hc]]; [left|right; by left|right; by right]. intros Hin. apply Hc. by right. }
    exists xs. split; [done|]. split.
    + intros name' [->|Hin]%elem_of_cons; [done|]. by apply I4.
    + intros x Hx. destruct (I5 x Hx) as (name' & l & p & ? & ?). exists name', l, p. split; [by right|done].
  - apply obind_Ok in Hl as (t & Ht%at_Ok & Hl). apply obind_Ok in Hl as ([[[l h2] m2] r2] & Hr & Hl). injection Hl as Hobs1 <- <- <-.
    destruct (rounds_spec fuel P h a name (t_domains t) n m r l h2 m2 r2 Hh HD Hm Hr) as (R1 & R2 & R3 & ys & R4 & R5 & R6).
    destruct (incorporates_holds h a ys h2 Hh R4) as (Hh2 & (Hs2 & _ & _ & Hb2) & _).
    destruct (IH obs1 h2 a m2 r2 obs' h' m' r' Hh2 ltac:(by rewrite Hs2) R2 H) as (I1 & I2 & xs & I3 & I4 & I5).
    rewrite Hs2, Hb2 in *. assert (obs' !! name = obs1 !! name) as Hname by (apply I2; by left).
    split; [done|]. split.
    { intros name' Hc. rewrite I2.
      - subst obs1. case_bool_decide; [done|]. rewrite lookup_insert_ne; [done|]. intros <-. destruct Hc as [Hc|[Hc| ->]]; [apply Hc; left|done|].
        by destruct l.
      - destruct Hc as [Hc|[Hc|Hc]]; [left|right; by left|right; by right]. intros Hin. apply Hc. by right. }
    exists (ys ++ xs). split; [by eapply incorporates_app|]. assert (n <> 0 -> obs' !! name = Some l) as Hl.
    { intros Hn0. rewrite Hname. subst obs1. rewrite bool_decide_eq_false_2 by (intros ->; done). apply lookup_insert. }
    split.
    + intros name' [->|Hin]%elem_of_cons Hnb Hn0.
      * exists t, l. split; [done|]. split; [by apply Hl|]. split; [done|]. split; [done|]. by apply sublist_inserts_r.
      * destruct (I4 name' Hin Hnb Hn0) as (t' & l' & ? & ? & ? & ? & ?). exists t', l'. split_and!; try done. by apply sublist_inserts_l.
    + intros x [Hx|Hx]%elem_of_app.
      * destruct (R6 x Hx) as (p & Hp & Hc). exists name, l, p. split; [left|]. split; [done|]. split; [|done]. apply Hl. intros ->. destruct l; [by apply elem_of_nil in Hp|done].
      * destruct (I5 x Hx) as (name' & l' & p & ? & ?). exists name', l', p. split; [by right|done].
Qed.

(** ** The bases *)
Definition no_empty h : Prop := forall b, h_b2n h !! b <> Some [].
Lemma push_no_empty b2n (t : t_rel V) name : (forall b : string, b2n !! b <> Some []) -> forall b, h_push_noisy b2n t name !! b <> Some [].
Proof.
  intros H b. destruct t as [|ds ob E sp base]; cbn; [apply H|]. destruct (decide (b = base)) as [->|Hne]; [rewrite lookup_insert|rewrite lookup_insert_ne by done; apply H].
  intros [= E0]. by destruct (default [] (b2n !! base)).
Qed.
Lemma add_b2n h name (t : t_rel V) r h' r' : hirm_add_relation h name t r = Ok (h', r') -> h_b2n h' = h_push_noisy (h_b2n h) t name.
Proof.
  unfold hirm_add_relation. intros H. apply obind_Ok in H as (_ & _ & H). apply obind_Ok in H as ([tb r1] & _ & H). apply obind_Ok in H as (c & _ & H).
  apply obind_Ok in H as (_ & _ & H). apply obind_Ok in H as (ir & _ & H). apply obind_Ok in H as (ir' & _ & H).
  apply obind_Ok in H as (_ & _ & H). apply obind_Ok in H as (_ & _ & H). by injection H as <- <-.
Qed.
Lemma ctor_no_empty fuel schema : forall h r h' r', no_empty h -> ctor_loop fuel schema h r = Ok (h', r') -> no_empty h'.
Proof.
  assert (forall l h r x y h' r' x' y', no_empty h -> foldM (ctor_visit schema) (h, r, x, y) l = Ok (h', r', x', y') -> no_empty h') as Hpass.
  { induction l as [|name l IH]; intros h r x y h' r' x' y' Hh H; cbn [foldM] in H; [by injection H as <- _ _ _|].
    apply obind_Ok in H as ([[[h1 r1] x1] y1] & Hv & H). refine (IH h1 r1 x1 y1 h' r' x' y' _ H). unfold ctor_visit in Hv.
    case_bool_decide; [by injection Hv as <- _ _ _|]. apply obind_Ok in Hv as (t & _ & Hv).
    destruct (match t with TClean _ _ _ _ => true | TNoisy _ _ _ _ base => bool_decide (base ∈ dom (h_schema h)) end); [|by injection Hv as <- _ _ _].
    apply obind_Ok in Hv as ([h2 r2] & Ha & Hv). injection Hv as <- _ _ _. intros b. rewrite (add_b2n _ _ _ _ _ _ Ha). by apply push_no_empty. }
  induction fuel as [|fuel IH]; intros h r h' r' Hh H; [done|]. cbn [ctor_loop] in H. apply obind_Ok in H as ([[[h1 r1] x1] y1] & Hp & H).
  pose proof (Hpass _ _ _ _ _ _ _ _ _ Hh Hp) as H1. destruct y1; cbn [negb] in H; [|by injection H as <- _]. destruct x1; cbn [negb] in H; [|done].
  exact (IH h1 r1 h' r' H1 H).
Qed.
Lemma new_no_empty schema r h r' : hirm_new schema r = Ok (h, r') -> no_empty h.
Proof. apply ctor_no_empty. intros b. cbn [hirm_empty h_b2n]. by rewrite lookup_empty. Qed.
Lemma do_no_empty h a c h' : hirm_holds h a -> hirm_call_ok h c -> hirm_do h c = Ok h' -> no_empty h -> no_empty h'.
Proof.
  intros Hh Hok H Hl.
  assert (forall h', same_directory h h' -> no_empty h') as Hsame.
  { intros h2 (Hs & _ & _ & Hb) b. rewrite Hb. apply Hl. }
  destruct c as [name ty r|o name|name items v r|o name items|o name table r|o names r|o r|lg o tb r]; simpl in *.
  - apply obind_Ok in H as ([h1 r1] & H & [= <-]). intros b. rewrite (add_b2n _ _ _ _ _ _ H). by apply push_no_empty.
  - destruct Hok as [Ho Hno]. destruct (proj1 (hirm_remove_spec h a o name Hh Ho Hno) _ H) as (rc & Hrc & Hh' & Hs & _ & Hb & _).
    intros b. rewrite Hb. apply Hl.
  - apply obind_Ok in H as ([h1 r1] & H & [= <-]).
    apply Hsame. by destruct (proj1 (hirm_incorporate_spec h a name items v r Hh) _ _ H) as (Hh' & Hs & _).
  - apply Hsame. by destruct (proj1 (hirm_unincorporate_spec h a o name items Hh Hok) _ H) as (Hh' & Hs & _).
  - apply obind_Ok in H as ([h1 r1] & H & [= <-]).
    apply Hsame. by destruct (moved_shuffled _ _ _ _ _ (proj1 (set_cluster_spec h a o name table r Hh Hok) _ _ H)) as (Hs & _).
  - apply obind_Ok in H as ([h1 r1] & H & [= <-]).
    apply Hsame. by destruct (proj1 (hirm_transition_spec o names Hok h a r Hh) _ _ H) as (Hs & _).
  - apply obind_Ok in H as ([h1 r1] & H & [= <-]).
    apply Hsame. by destruct (proj1 (hirm_transition_spec o _ Hok h a r Hh) _ _ H) as (Hs & _).
  - apply obind_Ok in H as ([h1 r1] & H & [= <-]).
    apply Hsame. by destruct (hirm_irm_step_spec lg o h a tb r h1 r1 Hh Hok H) as (Hh' & Hs & _).
Qed.
Lemma run_no_empty h cs h' : hirm_run h cs h' -> forall a, hirm_holds h a -> no_empty h -> no_empty h'.
Proof.
  intros H. induction H as [h|h c h1 cs h' Hok Hdo Hrun IH]; intros a Hh Hl; [done|].
  destruct (hirm_do_spec h a c h1 Hh Hok Hdo) as ([a1 Hh1] & _). exact (IH a1 Hh1 (do_no_empty h a c h1 Hh Hok Hdo Hl)).
Qed.
Lemma leaf_iff h name : hirm_listed_exactly h -> no_empty h -> leaf (h_schema h) name <-> is_Some (h_schema h !! name) /\ name ∉ dom (h_b2n h).
Proof.
  intros Hl He. split; intros [H1 H2]; (split; [done|]).
  - intros Hin. apply elem_of_dom in Hin as [ns Hns]. destruct ns as [|n ns]; [exact (He _ Hns)|].
    destruct (proj1 (Hl name n)) as (t & Ht & Hb); [exists (n :: ns); split; [done|left]|]. exact (H2 n t Ht Hb).
  - intros n t Ht Hb. destruct (proj2 (Hl name n)) as (ns & Hns & _); [eauto|]. apply H2. apply elem_of_dom. by eexists.
Qed.

(** ** Closure *)
Lemma closed_step h n l v y : hirm_closed h -> datum h n l = Some v -> base_step (h_schema h) (n, l) y -> is_Some (datum h y.1 y.2).
Proof.
  intros Hc Hd (t & tb & Ht & Htb & Hsb & Hy). destruct y as [b k]. cbn [fst snd] in *. subst k. unfold datum in Hd. destruct (hirm_data h !! n) as [m|] eqn:Hm; [|done].
  pose proof (Hc n t m l v Ht Hm Hd) as Hacc. destruct t as [|ds ob E sp base]; [done|]. cbn in Htb. injection Htb as <-.
  destruct Hacc as (tb' & mb & bv & Htb' & Hmb & Hbv & _). rewrite Hsb in Htb'. injection Htb' as <-. unfold datum. rewrite Hmb. cbn. by exists bv.
Qed.
Lemma closed_chain h x y : hirm_closed h -> chain (h_schema h) x y -> is_Some (datum h x.1 x.2) -> is_Some (datum h y.1 y.2).
Proof.
  intros Hc H. induction H as [x|x y z Hxy _ IH]; [done|]. intros [v Hv]. apply IH. destruct x as [n l]. exact (closed_step h n l v y Hc Hv Hxy).
Qed.

(** ** Fuel *)
(** The bases below a relation. *)
Inductive bases (schema : gmap string (t_rel V)) : string -> list string -> Prop :=
| bases_clean n t : schema !! n = Some t -> t_base t = None -> bases schema n []
| bases_noisy n t b l : schema !! n = Some t -> t_base t = Some b -> bases schema b l -> bases schema n (b :: l).
Lemma bases_unique schema n l : bases schema n l -> forall l', bases schema n l' -> l = l'.
Proof. induction 1 as [n t Ht Hb|n t b l Ht Hb _ IH]; intros l' H'; inversion H'; subst; try congruence. assert (t0 = t) as -> by congruence. assert (b0 = b) as -> by congruence. f_equal. by apply IH. Qed.
Lemma bases_below schema n l m : bases schema n l -> m ∈ l -> exists l', bases schema m l' /\ length l' < length l.
Proof.
  induction 1 as [n t Ht Hb|n t b l Ht Hb H IH]; intros Hm; [by apply elem_of_nil in Hm|]. apply elem_of_cons in Hm as [->|Hm].
  - exists l. split; [done|]. cbn. lia.
  - destruct (IH Hm) as (l' & ? & ?). exists l'. split; [done|]. cbn. lia.
Qed.
Lemma bases_nodup schema n l : bases schema n l -> NoDup (n :: l) /\ forall m, m ∈ n :: l -> m ∈ dom schema.
Proof.
  intros H. assert (forall l', bases schema n l' -> n ∉ l') as Hn.
  { intros l' Hl' Hin. destruct (bases_below _ _ _ _ Hl' Hin) as (l2 & H2 & Hlt). rewrite (bases_unique _ _ _ H2 _ Hl') in Hlt. lia. }
  revert Hn. induction H as [n t Ht Hb|n t b l Ht Hb H IH]; intros Hn.
  - split; [apply NoDup_singleton|]. intros m Hm. apply elem_of_list_singleton in Hm as ->. apply elem_of_dom. by eexists.
  - destruct IH as [I1 I2].
    { intros l' Hl' Hin. destruct (bases_below _ _ _ _ Hl' Hin) as (l2 & H2 & Hlt). rewrite (bases_unique _ _ _ H2 _ Hl') in Hlt. lia. }
    split; [apply NoDup_cons_2; [apply Hn; by econstructor|done]|]. intros m [->|Hm]%elem_of_cons; [apply elem_of_dom; by eexists|by apply I2].
Qed.
Lemma bases_short schema n l : bases schema n l -> length l < size schema.
Proof.
  intros H. destruct (bases_nodup _ _ _ H) as [H1 H2]. rewrite <- size_dom. pose proof (size_list_to_set (C := gset string) (n :: l) H1) as E.
  enough (size (list_to_set (n :: l) : gset string) <= size (dom schema)) by (cbn [length] in E; lia). apply subseteq_size. intros m Hm. apply H2. by apply elem_of_list_to_set in Hm.
Qed.
Lemma grounded_bases schema n : grounded schema n -> exists l, bases schema n l.
Proof. induction 1 as [n t Ht Hb|n t b Ht Hb _ [l IH]]; [exists []|exists (b :: l)]; by econstructor. Qed.

Lemma sample_relation_fuel h n l : bases (h_schema h) n l -> forall f1 f2 items r, length l < f1 -> length l < f2 ->
  hirm_sample_relation f1 h n items r = hirm_sample_relation f2 h n items r.
Proof.
  induction 1 as [n t Ht Hb|n t b l Ht Hb H IH]; intros f1 f2 items r H1 H2; (destruct f1 as [|f1]; [cbn in H1; lia|]); (destruct f2 as [|f2]; [cbn in H2; lia|]);
    cbn [hirm_sample_relation]; rewrite Ht; cbn [at_ obind]; (destruct t as [|ds ob E sp base]; [|]); try done.
  cbn in Hb. injection Hb as ->. cbn [length] in H1, H2.
  destruct (get_relation h n) as [x| | | | |]; try done. cbn [obind]. destruct (as_noisy x) as [nz| | | | |]; try done. cbn [obind].
  destruct (base_of (hirm_lookup h) nz) as [bv| | | | |]; try done. cbn [obind]. destruct (get_base_items bv items) as [bi| | | | |]; try done. cbn [obind].
  case_bool_decide; [done|]. rewrite (IH f1 f2 bi r ltac:(lia) ltac:(lia)). done.
Qed.
Lemma rounds_fuel f1 : forall f2 h name ds n m r x, f1 <= f2 -> sample_rounds f1 h name ds n m r = Ok x -> sample_rounds f2 h name ds n m r = Ok x.
Proof.
  induction f1 as [|f1 IH]; intros f2 h name ds n m r x Hle H; destruct n as [|n]; try done; [destruct f2; exact H|destruct f2; exact H|].
  destruct f2 as [|f2]; [lia|]. cbn [sample_rounds] in H |- *.
  apply obind_Ok in H as ([[[es ps] m1] r1] & -> & H). cbn [obind]. apply obind_Ok in H as (y & -> & H). cbn [obind]. case_bool_decide.
  - apply obind_Ok in H as (m2 & -> & H). cbn [obind]. apply (IH f2); [lia|done].
  - apply obind_Ok in H as ([[v h1] r2] & -> & H). cbn [obind]. apply obind_Ok in H as ([[[l h2] m2] r3] & Hr & H).
    rewrite (IH f2 _ _ _ _ _ _ _ ltac:(lia) Hr). exact H.
Qed.
End Hirm.
