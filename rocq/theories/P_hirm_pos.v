(** In a HIRM the concentration of every domain of every cluster stays positive. *)
From Coq Require Import String Ascii.
From stdpp Require Import gmap strings sorting.
From Coq Require Import ZArith Reals Lra Lia.
From Verif Require Import M_base M_crp M_domain M_dist M_relation M_noisy M_irm M_hirm
  S_crp S_crp_state S_relation S_irm S_hirm P_base P_sum P_crp P_crp_score P_domain P_relation P_relation_gibbs P_any P_irm P_irm_schema
  P_irm_history P_irm_gibbs P_irm_pos P_hirm P_hirm_move P_hirm_trans P_hirm_history P_hirm_ctor S_score.
Local Open Scope R_scope.

Section HirmPos.
Context {V : Type}.
Implicit Types (ir : irm V) (h : hirm V).

Definition irms_positive (m : gmap Z (irm V)) : Prop := forall t ir, m !! t = Some ir -> positive (i_domains ir).
Lemma irms_pos_insert m t ir : irms_positive m -> positive (i_domains ir) -> irms_positive (<[t := ir]> m).
Proof. intros Hm Hi t' ir' [[_ <-]|[_ H]]%lookup_insert_Some; [done|]. by eapply Hm. Qed.
Lemma irms_pos_delete m t : irms_positive m -> irms_positive (delete t m).
Proof. intros Hm t' ir' [_ H]%lookup_delete_Some. by eapply Hm. Qed.
Lemma empty_positive : positive (i_domains (irm_empty : irm V)).
Proof. intros d dm H. cbn in H. by rewrite lookup_empty in H. Qed.

Lemma incorporate_positive lk ir name items v r ir' r' : positive (i_domains ir) -> irm_incorporate lk ir name items v r = Ok (ir', r') -> positive (i_domains ir').
Proof.
  intros HW Hi. unfold irm_incorporate in Hi.
  apply obind_Ok in Hi as (a & _ & Hi). apply obind_Ok in Hi as ([[W1 a1] q] & Hi & [= <- <-]). simpl.
  destruct a as [D rel|n]; simpl in Hi.
  - apply obind_Ok in Hi as ([[W2 rel2] q2] & Hi & [= <- <- <-]). by eapply rel_incorporate_positive.
  - apply obind_Ok in Hi as (b & _ & Hi). apply obind_Ok in Hi as ([[W2 n2] q2] & Hi & [= <- <- <-]).
    unfold noisy_incorporate in Hi. apply obind_Ok in Hi as (bi & _ & Hi). apply obind_Ok in Hi as (bv & _ & Hi).
    apply obind_Ok in Hi as ([[W3 rel3] q3] & Hi & [= <- <- <-]). by eapply rel_incorporate_positive.
Qed.
Lemma unincorporate_positive lk o ir name items ir' : positive (i_domains ir) -> irm_unincorporate lk o ir name items = Ok ir' -> positive (i_domains ir').
Proof.
  intros HW Hdo. unfold irm_unincorporate in Hdo. apply obind_Ok in Hdo as (a & _ & Hdo). apply obind_Ok in Hdo as (a' & _ & Hdo).
  apply obind_Ok in Hdo as (t & _ & Hdo). case_bool_decide; [|done]. apply obind_Ok in Hdo as (m & _ & Hdo).
  apply obind_Ok in Hdo as ([W m'] & Hd & [= <-]). simpl in *. clear H. revert Hd HW. generalize (i_domains ir) as W0.
  generalize (zip (t_domains t) items) as l. intros l. revert m. induction l as [|[d e] l IH]; intros m W0 Hd HW; cbn [foldM] in Hd.
  { by injection Hd as <- <-. }
  apply obind_Ok in Hd as ([W1 m1] & H1 & Hd). eapply IH; [exact Hd|]. unfold drop_absent in H1.
  apply obind_Ok in H1 as (b & _ & H1). destruct b; [by injection H1 as <- <-|].
  apply obind_Ok in H1 as (dm & Hdm & H1). apply obind_Ok in H1 as (dm' & Hu & [= <- <-]). unfold deref in Hdm. apply idx_Ok in Hdm.
  apply positive_insert; [done|]. rewrite (dom_unincorporate_alpha _ _ _ Hu). by eapply HW.
Qed.
Lemma add_to_irm_positive h ir name t ir' : positive (i_domains ir) -> add_relation_to_irm h ir name t = Ok ir' -> positive (i_domains ir').
Proof.
  intros HW H. destruct t as [ds obs D sp|ds obs E sp base]; cbn [add_relation_to_irm] in H.
  - unfold irm_add_clean in H. apply obind_Ok in H as (? & _ & H). apply obind_Ok in H as (ir1 & H1 & H).
    apply obind_Ok in H as (rel & _ & [= <-]). simpl. by eapply add_domains_positive.
  - apply obind_Ok in H as (? & _ & H). unfold irm_add_with_base in H. apply obind_Ok in H as (? & _ & H). apply obind_Ok in H as (ir1 & H1 & H).
    apply obind_Ok in H as (n & _ & [= <-]). simpl. by eapply add_domains_positive.
Qed.
Lemma remove_positive o ir name ir' : positive (i_domains ir) -> irm_remove_relation o ir name = Ok ir' -> positive (i_domains ir').
Proof.
  intros HW H. unfold irm_remove_relation in H. apply obind_Ok in H as (a & _ & H). apply obind_Ok in H as (ir1 & H1 & [= <-]). cbn [i_domains].
  revert ir HW H1. generalize (o_names o (list_to_set (any_doms a))) as l. intros l. induction l as [|d l IH]; intros ir HW H1; cbn [foldM] in H1; [by injection H1 as <-|].
  apply obind_Ok in H1 as (ir2 & H2 & H1). eapply IH; [|exact H1]. apply obind_Ok in H2 as (s & _ & H2). case_bool_decide.
  - apply obind_Ok in H2 as (? & _ & [= <-]). cbn. intros d' dm' [_ Hd']%lookup_delete_Some. by eapply HW.
  - by injection H2 as <-.
Qed.
Lemma refill_positive lk o ir name data r ir' r' : positive (i_domains ir) -> refill lk o ir name data r = Ok (ir', r') -> positive (i_domains ir').
Proof.
  unfold refill. generalize (o_vecs o (dom data)) as l. intros l. revert ir r. induction l as [|items l IH]; intros ir r HW H; cbn [foldM] in H; [by injection H as <- <-|].
  apply obind_Ok in H as ([ir1 r1] & H1 & H). eapply IH; [|exact H]. cbn [refill_step] in H1. apply obind_Ok in H1 as (v & _ & H1). by eapply incorporate_positive.
Qed.
Lemma try_fill_positive h o name t data ir r ir' r' : positive (i_domains ir) -> try_fill h o name t data ir r = Ok (ir', r') -> positive (i_domains ir').
Proof. intros HW H. unfold try_fill in H. apply obind_Ok in H as (ir1 & H1 & H). eapply refill_positive; [|exact H]. by eapply add_to_irm_positive. Qed.

Definition trial_positive (st : trial V) : Prop := irms_positive (tr_irms st) /\ forall t ir, tr_aux st = Some (t, ir) -> positive (i_domains ir).
Lemma try_table_positive h o name t data cur w st table st' : trial_positive st -> try_table h o name t data cur w st table = Ok st' -> trial_positive st'.
Proof.
  intros [H1 H2] H. unfold try_table in H. destruct (tr_irms st !! table) as [ir|] eqn:E.
  - apply obind_Ok in H as ([ir1 r1] & Hf & H). apply obind_Ok in H as (a & _ & [= <-]). split; [|done]. cbn. apply irms_pos_insert; [done|].
    case_bool_decide; [injection Hf as <- <-; by eapply H1|]. eapply try_fill_positive; [|exact Hf]. by eapply H1.
  - apply obind_Ok in H as (? & _ & H). apply obind_Ok in H as ([ir1 r1] & Hf & H). apply obind_Ok in H as (a & _ & [= <-]). split; [done|]. cbn. intros t' ir' [= <- <-].
    case_bool_decide; [injection Hf as <- <-; apply empty_positive|]. eapply try_fill_positive; [|exact Hf]. apply empty_positive.
Qed.
Lemma transition_relation_positive o h name r h' r' : irms_positive (h_irms h) -> hirm_transition_relation o h name r = Ok (h', r') -> irms_positive (h_irms h').
Proof.
  intros HW H. unfold hirm_transition_relation in H. apply obind_Ok in H as ([tables st] & Hl & H). apply obind_Ok in H as ([i r1] & _ & H).
  apply obind_Ok in H as (choice & _ & H). apply obind_Ok in H as (h1 & Hs & [= <- <-]).
  assert (trial_positive st) as [T1 T2].
  { unfold hirm_relation_logps in Hl. apply obind_Ok in Hl as (cur & _ & Hl). apply obind_Ok in Hl as (a & _ & Hl). apply obind_Ok in Hl as (t & _ & Hl).
    apply obind_Ok in Hl as (w & _ & Hl). apply obind_Ok in Hl as (st0 & Hl & [= _ <-]).
    assert (trial_positive (Trial (h_irms h) None [] r)) as H0 by done. revert Hl H0. generalize (Trial (h_irms h) None [] r) as st1. generalize (sorted_keys w) as l.
    intros l. induction l as [|t0 l IH]; intros st1 Hl H0; cbn [foldM] in Hl; [by injection Hl as <-|].
    apply obind_Ok in Hl as (st2 & Hl2 & Hl). eapply IH; [exact Hl|]. by eapply try_table_positive. }
  unfold hirm_settle in Hs. apply obind_Ok in Hs as (rc & _ & Hs). apply obind_Ok in Hs as (cur & _ & Hs). apply obind_Ok in Hs as (irms & Hi & Hs).
  apply obind_Ok in Hs as (c & _ & Hs). apply obind_Ok in Hs as (c' & _ & Hs). apply obind_Ok in Hs as (? & _ & Hs). apply obind_Ok in Hs as (? & _ & [= <-]). cbn.
  assert (irms_positive irms) as Hpos.
  { revert Hi T1. generalize (tr_irms st) as m. generalize (sorted_keys (crp_tables (h_crp h))) as l. intros l. induction l as [|t0 l IH]; intros m Hi T1; cbn [foldM] in Hi; [by injection Hi as <-|].
    apply obind_Ok in Hi as (m2 & H2 & Hi). eapply IH; [exact Hi|]. unfold untry_table in H2. apply obind_Ok in H2 as (ir & Hir%at_Ok & H2).
    apply obind_Ok in H2 as (ir1 & H1 & H2).
    assert (positive (i_domains ir1)) as Hp.
    { clear H2. case_bool_decide; [injection H1 as <-; by eapply T1|]. apply obind_Ok in H1 as (? & _ & H1). eapply remove_positive; [|exact H1]. by eapply T1. }
    case_bool_decide.
    - apply obind_Ok in H2 as (? & _ & H2). apply obind_Ok in H2 as (? & _ & H2). apply obind_Ok in H2 as (? & _ & [= <-]). by apply irms_pos_delete.
    - injection H2 as <-. by apply irms_pos_insert. }
  destruct (tr_aux st) as [[t ir]|]; [|done]. case_bool_decide; [|done]. apply irms_pos_insert; [done|]. by eapply T2.
Qed.
Lemma transition_positive_h o names : forall h r h' r', irms_positive (h_irms h) -> hirm_transition o h names r = Ok (h', r') -> irms_positive (h_irms h').
Proof.
  unfold hirm_transition. induction names as [|n names IH]; intros h r h' r' HW H; cbn [foldM] in H; [by injection H as <- <-|].
  apply obind_Ok in H as ([h1 r1] & H1 & H). eapply IH; [|exact H]. by eapply transition_relation_positive.
Qed.
Lemma set_cluster_positive o h name table r h' r' : irms_positive (h_irms h) -> hirm_set_cluster o h name table r = Ok (h', r') -> irms_positive (h_irms h').
Proof.
  intros HW H. unfold hirm_set_cluster in H. apply obind_Ok in H as (? & _ & H). apply obind_Ok in H as (rc & _ & H). apply obind_Ok in H as (cur & _ & H).
  apply obind_Ok in H as (a & _ & H). apply obind_Ok in H as (t & _ & H). apply obind_Ok in H as (ir & Hir & H). apply obind_Ok in H as (ir1 & H1 & H).
  apply obind_Ok in H as (ir2 & H2%at_Ok & H). apply obind_Ok in H as ([ir3 r3] & H3 & H). apply obind_Ok in H as (c & _ & H). apply obind_Ok in H as (c' & _ & H).
  apply obind_Ok in H as (? & _ & H). apply obind_Ok in H as (? & _ & [= <- <-]). cbn [h_irms h_set_crp h_set_irms].
  assert (positive (i_domains ir1)) as P1.
  { eapply remove_positive; [|exact H1]. unfold relation_to_irm in Hir. apply obind_Ok in Hir as (tt0 & _ & Hir%at_Ok). by eapply HW. }
  set (m0 := if bool_decide (i_rels ir1 = ∅) then delete cur (h_irms h) else <[cur := ir1]> (h_irms h)) in *.
  assert (irms_positive m0) as P0. { unfold m0. case_bool_decide; [by apply irms_pos_delete|by apply irms_pos_insert]. }
  set (m1 := match m0 !! table with Some _ => m0 | None => <[table := irm_empty]> m0 end) in *.
  assert (irms_positive m1) as P2. { unfold m1. destruct (m0 !! table); [done|]. apply irms_pos_insert; [done|apply empty_positive]. }
  apply irms_pos_insert; [done|]. eapply try_fill_positive; [|exact H3]. by eapply P2.
Qed.
Lemma add_relation_positive h name t r h' r' : irms_positive (h_irms h) -> hirm_add_relation h name t r = Ok (h', r') -> irms_positive (h_irms h').
Proof.
  intros HW H. unfold hirm_add_relation in H. apply obind_Ok in H as (? & _ & H). apply obind_Ok in H as ([table r1] & _ & H). apply obind_Ok in H as (c & _ & H).
  apply obind_Ok in H as (? & _ & H). apply obind_Ok in H as (ir & Hir%at_Ok & H). apply obind_Ok in H as (ir1 & H1 & H). apply obind_Ok in H as (? & _ & H).
  apply obind_Ok in H as (? & _ & [= <- <-]). cbn [h_irms].
  set (m1 := match h_irms h !! table with Some _ => h_irms h | None => <[table := irm_empty]> (h_irms h) end) in *.
  assert (irms_positive m1) as P2. { unfold m1. destruct (h_irms h !! table); [done|]. apply irms_pos_insert; [done|apply empty_positive]. }
  apply irms_pos_insert; [done|]. eapply add_to_irm_positive; [|exact H1]. by eapply P2.
Qed.

Lemma hirm_do_positive h a c h' : hirm_holds h a -> hirm_call_ok h c -> irms_positive (h_irms h) -> hirm_do h c = Ok h' -> irms_positive (h_irms h').
Proof.
  intros Hh Hok HW H. destruct c as [name ty r|o name|name items v r|o name items|o name table r|o names r|o r|lg o tb r]; cbn [hirm_do] in H; simpl in Hok.
  - apply obind_Ok in H as ([h1 r1] & H & [= <-]). by eapply add_relation_positive.
  - unfold hirm_remove_relation in H. apply obind_Ok in H as (rc & _ & H). apply obind_Ok in H as (t & _ & H). apply obind_Ok in H as (s & _ & H).
    apply obind_Ok in H as (c & _ & H). apply obind_Ok in H as (ir & Hir%at_Ok & H). apply obind_Ok in H as (ir1 & H1 & H).
    apply obind_Ok in H as (irms & Hi & [= <-]). cbn [h_irms]. case_bool_decide.
    + apply obind_Ok in Hi as (? & _ & [= <-]). by apply irms_pos_delete.
    + injection Hi as <-. apply irms_pos_insert; [done|]. eapply remove_positive; [|exact H1]. by eapply HW.
  - apply obind_Ok in H as ([h1 r1] & H & [= <-]). unfold hirm_incorporate in H. apply obind_Ok in H as (t & _ & H). apply obind_Ok in H as (ir & Hir%at_Ok & H).
    apply obind_Ok in H as ([ir1 r2] & H1 & [= <- <-]). cbn. apply irms_pos_insert; [done|]. eapply incorporate_positive; [|exact H1]. by eapply HW.
  - unfold hirm_unincorporate in H. apply obind_Ok in H as (t & _ & H). apply obind_Ok in H as (ir & Hir%at_Ok & H).
    apply obind_Ok in H as (ir1 & H1 & [= <-]). cbn. apply irms_pos_insert; [done|]. eapply unincorporate_positive; [|exact H1]. by eapply HW.
  - apply obind_Ok in H as ([h1 r1] & H & [= <-]). by eapply set_cluster_positive.
  - apply obind_Ok in H as ([h1 r1] & H & [= <-]). by eapply transition_positive_h.
  - apply obind_Ok in H as ([h1 r1] & H & [= <-]). by eapply transition_positive_h.
  - apply obind_Ok in H as ([h1 r1] & H & [= <-]). cbn [hirm_irm_step] in H. apply obind_Ok in H as (ir & Hir%at_Ok & H).
    apply obind_Ok in H as ([ir1 r2] & H1 & [= <- <-]). cbn. apply irms_pos_insert; [done|]. destruct (irm_at_holds h a tb ir Hh Hir) as [A HA].
    eapply (irm_do_positive _ ir A (IStep lg o r)); [by eapply HW|exact HA|exact Hok|]. cbn [irm_do]. by rewrite H1.
Qed.
Lemma hirm_run_positive h cs h' : hirm_run h cs h' -> forall a, hirm_holds h a -> irms_positive (h_irms h) -> irms_positive (h_irms h').
Proof.
  intros H. induction H as [h|h c h1 cs h' Hok Hdo Hrun IH]; intros a Hh HW; [done|].
  destruct (hirm_do_spec h a c h1 Hh Hok Hdo) as ([a1 Hh1] & _). exact (IH a1 Hh1 (hirm_do_positive h a c h1 Hh Hok HW Hdo)).
Qed.
Lemma hirm_new_positive schema r h r' : hirm_new schema r = Ok (h, r') -> irms_positive (h_irms (h : hirm V)).
Proof.
  unfold hirm_new. assert (irms_positive (h_irms (hirm_empty : hirm V))) as H0. { intros t ir H. cbn in H. by rewrite lookup_empty in H. }
  revert H0. generalize (hirm_empty : hirm V) as h0. generalize (S (size schema)) as n. intros n. revert r. induction n as [|n IH]; intros r h0 H0 H; [done|].
  cbn [ctor_loop] in H. apply obind_Ok in H as ([[[h1 r1] added] pending] & Hf & H).
  assert (irms_positive (h_irms h1)) as H1.
  { revert Hf H0. clear. generalize false at 1 as b1. generalize false as b2. revert h0 r. generalize (sorted_names schema) as l. intros l. induction l as [|n l IH]; intros h0 r b2 b1 Hf H0; cbn [foldM] in Hf; [by injection Hf as <- _ _ _|].
    apply obind_Ok in Hf as ([[[h2 r2] ad] pe] & Hv & Hf). eapply IH; [exact Hf|]. unfold ctor_visit in Hv. case_bool_decide; [by injection Hv as <- _ _ _|].
    apply obind_Ok in Hv as (t & _ & Hv). destruct (match t with TClean _ _ _ _ => _ | _ => _ end); [|by injection Hv as <- _ _ _].
    apply obind_Ok in Hv as ([h3 r3] & Hv & [= <- _ _ _]). by eapply add_relation_positive. }
  destruct pending; cbn in H; [|by injection H as <- _]. destruct added; cbn in H; [|done]. by eapply IH.
Qed.
Lemma run_positive schema r0 h0 q cs h : schema_lawful schema -> hirm_new schema r0 = Ok (h0, q) -> hirm_run h0 cs h -> hirm_positive h.
Proof.
  intros HL H0 Hrun. destruct (proj1 (hirm_new_spec schema r0 HL) _ _ H0) as [([a Hh] & _) _].
  intros t ir d dm Hir Hd. by eapply (hirm_run_positive _ _ _ Hrun a Hh (hirm_new_positive _ _ _ _ H0) _ _ Hir).
Qed.
End HirmPos.
