(** Sampling from a HIRM. *)
From stdpp Require Import gmap strings list relations.
From Coq Require Import ZArith Reals Lia.
From Verif Require Import M_base M_math M_crp M_domain M_dist M_relation M_noisy M_irm M_hirm S_crp S_crp_state S_relation S_irm S_latent S_hirm
  P_base P_relation P_relation_history P_any P_irm P_irm_schema P_noisy P_hirm_move P_hirm_trans P_hirm_history P_hirm_ctor P_load_models S_sample.

Section Sample.
Context {V : Type}.
Implicit Types h : hirm V.

Lemma incorporate_items_inv (D : Dist V) W (rel : relation D) items r st : incorporate_items D W rel items r = Ok st ->
  length items = length (r_doms rel) /\ r_data rel !! items = None.
Proof.
  unfold incorporate_items. intros H. apply obind_Ok in H as (? & Hn & H). apply assert_Ok, bool_decide_eq_true, not_elem_of_dom in Hn.
  apply obind_Ok in H as ([[W' idx] r'] & _ & H). apply obind_Ok in H as (z & Hz & _). unfold get_cluster_assignment in Hz. case_bool_decide as Hl; [done|done].
Qed.
Lemma any_sample_incorporates ar lk W A (a : any_rel V) items r v W' a' r' : world_holds W A -> any_holds ar A a ->
  match a with AClean D _ => draws_keep D | ANoisy _ => True end ->
  any_sample_and_incorporate lk W a items r = Ok (v, W', a', r') -> exists r1, any_incorporate lk W a items v r = Ok (W', a', r1).
Proof.
  intros HW Ha HD H. destruct a as [D rel|n]; cbn [any_sample_and_incorporate any_incorporate] in *.
  - destruct Ha as [L Hrel]. apply obind_Ok in H as ([[[v1 W1] rel'] r1] & H & [= <- <- <- <-]).
    assert (length items = length (r_doms rel) /\ r_data rel !! items = None) as [Hl Hn].
    { unfold rel_sample_and_incorporate in H. apply obind_Ok in H as (st & H & _). by eapply incorporate_items_inv. }
    destruct (rel_sample_incorporates L W A rel items r v1 W1 rel' r1) as [r2 ->]; try done; [|by eexists].
    intros h l r2 v2 s r3 _ Hs. by eapply HD.
  - apply obind_Ok in H as (b & Hb & H). apply obind_Ok in H as ([[[v1 W1] n'] r1] & H & [= <- <- <- <-]). rewrite Hb. cbn [obind].
    apply noisy_sample_incorporates in H as [r2 ->]. by eexists.
Qed.

Lemma incorporates_app h xs h1 ys h2 : incorporates h xs h1 -> incorporates h1 ys h2 -> incorporates h (xs ++ ys) h2.
Proof. induction 1; intros Hy; [done|]. econstructor; [done|auto]. Qed.
Lemma incorporates_gentle h xs h' : incorporates h xs h' -> exists cs, hirm_gentle_run h cs h'.
Proof.
  induction 1 as [h|h n l v r h1 r1 xs h' H _ [cs IH]]; [exists []; constructor|].
  exists (HIncorporate n l v r :: cs). econstructor; [done|done| |exact IH]. cbn. by rewrite H.
Qed.
Lemma incorporates_holds h a xs h' : hirm_holds h a -> incorporates h xs h' -> hirm_holds h' a /\ same_directory h h' /\ h_crp h' = h_crp h.
Proof.
  intros Hh H. induction H as [h|h n l v r h1 r1 xs h' H _ IH]; [done|].
  destruct (proj1 (hirm_incorporate_spec h a n l v r Hh) _ _ H) as (H1 & (S1 & S2 & S3 & S4) & H3 & _). destruct (IH H1) as (I1 & (T1 & T2 & T3 & T4) & I3).
  split_and!; [done| |congruence]. unfold same_directory. split_and!; congruence.
Qed.

Lemma incorporate_datum h a n l v r h1 r1 : hirm_holds h a -> hirm_incorporate h n l v r = Ok (h1, r1) ->
  datum h n l = None /\ is_Some (h_schema h !! n) /\ (forall ty, h_schema h !! n = Some ty -> length l = length (t_domains ty)) /\
  forall m k, datum h1 m k = if decide ((m, k) = (n, l)) then Some v else datum h m k.
Proof.
  intros Hh H. destruct (proj1 (hirm_incorporate_spec h a n l v r Hh) _ _ H) as (_ & _ & _ & (ty & d & Hty & Hd & Hn & Hl & _) & Hdata).
  unfold datum. split; [by rewrite Hd|]. split; [by eexists|]. split; [intros ty' E; congruence|]. intros m k. rewrite Hdata. destruct (decide (m = n)) as [->|Hne].
  - rewrite lookup_alter, Hd. cbn. destruct (decide (k = l)) as [->|Hk]; [rewrite decide_True by done; by rewrite lookup_insert|].
    rewrite decide_False by congruence. by rewrite lookup_insert_ne.
  - rewrite lookup_alter_ne by done. by rewrite decide_False by congruence.
Qed.
(** All incorporated tuples are new and different; nothing else changes. *)
Lemma incorporates_data h a xs h' : hirm_holds h a -> incorporates h xs h' ->
  NoDup (xs.*1) /\ (forall n l v, (n, l, v) ∈ xs -> datum h n l = None /\ datum h' n l = Some v /\
     is_Some (h_schema h !! n) /\ forall ty, h_schema h !! n = Some ty -> length l = length (t_domains ty)) /\
  (forall n l, (n, l) ∉ xs.*1 -> datum h' n l = datum h n l).
Proof.
  intros Hh H. revert Hh. induction H as [h|h n l v r h1 r1 xs h' H Hx IH]; intros Hh.
  { split; [constructor|]. split; [|done]. intros n l v Hin. by apply elem_of_nil in Hin. }
  destruct (incorporate_datum h a n l v r h1 r1 Hh H) as (D1 & D2 & D3 & D4).
  destruct (proj1 (hirm_incorporate_spec h a n l v r Hh) _ _ H) as (Hh1 & (S1 & _) & _). destruct (IH Hh1) as (I1 & I2 & I3).
  assert ((n, l) ∉ xs.*1) as Hnot.
  { intros ([[n' l'] v'] & E & Hin)%elem_of_list_fmap. cbn in E. injection E as -> ->. destruct (I2 _ _ _ Hin) as [E _]. rewrite D4, decide_True in E by done. done. }
  split; [cbn; by constructor|]. split.
  - intros n1 l1 v1 [E|Hin]%elem_of_cons.
    + injection E as -> -> ->. split; [done|]. split; [by rewrite (I3 _ _ Hnot), D4, decide_True|done].
    + destruct (I2 _ _ _ Hin) as (E1 & E2 & E3). rewrite D4 in E1. destruct (decide _); [done|]. split; [done|]. split; [done|]. by rewrite <- S1.
  - intros n1 l1 [Hne Hn]%not_elem_of_cons. rewrite (I3 _ _ Hn), D4, decide_False; done.
Qed.

(** ** One relation *)
Lemma sample_relation_incorporates fuel : forall h a name items r v h' r', hirm_holds h a -> schema_draws_keep (h_schema h) ->
  hirm_sample_relation fuel h name items r = Ok (v, h', r') ->
  exists anc, incorporates h (anc ++ [(name, items, v)]) h' /\ Forall (fun x => tc (base_step (h_schema h)) (name, items) x.1) anc.
Proof.
  induction fuel as [|fuel IH]; intros h a name items r v h' r' Hh HD H; [done|]. cbn [hirm_sample_relation] in H.
  apply obind_Ok in H as (t & Ht%at_Ok & H). apply obind_Ok in H as ([h1 r1] & Hb & H).
  assert (exists anc, incorporates h anc h1 /\ Forall (fun x => tc (base_step (h_schema h)) (name, items) x.1) anc) as (anc & Hanc & Hchain).
  { destruct t as [|ds ob E sp base]; [injection Hb as <- <-; exists []; split; constructor|].
    apply obind_Ok in Hb as (x & Hx & Hb). apply obind_Ok in Hb as (nz & Hnz & Hb). apply obind_Ok in Hb as (b & Hbo & Hb). apply obind_Ok in Hb as (bi & Hbi & Hb).
    case_bool_decide; [injection Hb as <- <-; exists []; split; constructor|]. apply obind_Ok in Hb as ([[w h2] r2] & Hb & [= <- <-]).
    destruct (IH h a base bi r w h2 r2 Hh HD Hb) as (anc & Ha & Hf). exists (anc ++ [(base, bi, w)]). split; [done|].
    assert (hirm_lookup h name = Some x) as Hlx by (unfold hirm_lookup; by rewrite Hx).
    destruct (hirm_lookup_declared h a name x Hh Hlx) as (ty & Hty & Htx). rewrite Ht in Hty. injection Hty as <-.
    assert (n_base nz = base) as Hbase. { destruct x as [|n0]; cbn in Hnz; [done|]. injection Hnz as ->. cbn in Htx. by injection Htx. }
    unfold base_of in Hbo. rewrite Hbase in Hbo. apply obind_Ok in Hbo as (ab & Hab%idx_Ok & [= <-]).
    destruct (hirm_lookup_declared h a base ab Hh Hab) as (tb & Htb & Etb).
    unfold get_base_items in Hbi. cbn [view_of bv_arity] in Hbi. case_bool_decide as Hlen; [|done]. injection Hbi as <-.
    assert (base_step (h_schema h) (name, items) (base, take (length (any_doms ab)) items)) as Hst.
    { exists (TNoisy ds ob E sp base), tb. cbn. split_and!; try done. rewrite Etb. by rewrite any_type_t_domains. }
    apply Forall_app. split; [|apply Forall_singleton; by apply tc_once].
    eapply Forall_impl; [exact Hf|]. intros y Hy. by eapply tc_l. }
  destruct (incorporates_holds h a anc h1 Hh Hanc) as (Hh1 & (Hs1 & _) & _).
  exists anc. split; [|done]. eapply incorporates_app; [done|].
  apply obind_Ok in H as (tb & Htb & H). apply obind_Ok in H as (ir & Hir%at_Ok & H). apply obind_Ok in H as (x & Hx%at_Ok & H).
  apply obind_Ok in H as ([[[v1 W] x'] r2] & Hs & [= <- <- <-]).
  destruct (irm_at_holds h1 a tb ir Hh1 Hir) as [A HA].
  destruct (any_sample_incorporates _ (hirm_lookup h1) _ A x items r1 v1 W x' r2 (ih_world _ _ _ HA) (ih_rels _ _ _ HA name x Hx)) as [r3 Hi]; [|done|].
  { destruct (at_table h1 name tb ir _ Htb Hir Hx) as [_ Hl]. destruct (hirm_lookup_declared h1 a name _ Hh1 Hl) as (ty & Hty & Htx).
    destruct x as [D rel|]; [|done]. cbn in Htx. rewrite Htx, Hs1 in Hty. exact (HD _ _ Hty). }
  eapply (inc_cons _ _ _ _ r1); [|constructor]. unfold hirm_incorporate. rewrite Htb. cbn [obind]. rewrite Hir. cbn [at_ obind].
  unfold irm_incorporate. rewrite Hx. cbn [at_ obind]. rewrite Hi. cbn [obind]. reflexivity.
Qed.
End Sample.
