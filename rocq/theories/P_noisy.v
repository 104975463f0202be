(** Sampling into a relation, and histories of one noisy relation. *)
From stdpp Require Import gmap strings list.
From Coq Require Import ZArith Reals Lia.
From Verif Require Import M_base M_math M_crp M_domain M_dist M_relation M_noisy M_irm S_relation S_irm S_latent
  P_base P_relation P_relation_history P_any P_reached.

(** Sampling a value and incorporating it is incorporating the value drawn. *)
Lemma noisy_sample_incorporates {V} W (n : noisy V) b items r v W' n' r' :
  noisy_sample_and_incorporate W n b items r = Ok (v, W', n', r') ->
  exists r1, noisy_incorporate W n b items v r = Ok (W', n', r1).
Proof.
  unfold noisy_sample_and_incorporate, noisy_incorporate, rel_incorporate, get_base_value. intros H.
  apply obind_Ok in H as ([[[W1 rel1] z] r1] & H1 & H). apply obind_Ok in H as (bv & H2 & H). apply obind_Ok in H2 as (bi & Hbi & Hbv).
  apply obind_Ok in H as (bi' & Hbi' & H). rewrite Hbi in Hbi'. injection Hbi' as <-.
  apply obind_Ok in H as ([v1 r2] & _ & H). cbn [n_set n_rel n_em] in H. apply obind_Ok in H as (c & Hc & H). apply obind_Ok in H as (c' & Hc' & [= <- <- <- <-]).
  exists r1. rewrite Hbi. cbn [obind]. rewrite Hbv. cbn [obind]. rewrite H1. cbn [obind].
  cbn [set_data r_clusters]. rewrite Hc. cbn [obind]. rewrite Hc'. done.
Qed.

Lemma rel_sample_incorporates {V} {D : Dist V} (L : lawful D) W A (rel : relation D) items r v W' rel' r' :
  sample_keeps L -> world_holds W A -> rel_holds L A rel -> length items = length (r_doms rel) -> r_data rel !! items = None ->
  rel_sample_and_incorporate D W rel items r = Ok (v, W', rel', r') ->
  exists r1, rel_incorporate D W rel items v r = Ok (W', rel', r1).
Proof.
  intros Hk HW Hrel Hl Hn H. unfold rel_sample_and_incorporate in H.
  destruct (incorporate_items_spec L W A rel items r HW Hrel Hl Hn) as (W1 & idx & r1 & A1 & z & h0 & Ei & HW1 & Hext & Hz & _ & _).
  rewrite Ei in H. cbn [obind] in H. apply obind_Ok in H as ([[v1 rel1] r2] & Hs & H).
  set (rel0 := Rel D (r_doms rel) (r_spec rel) (<[z := default (law_of L h0 []) (r_clusters rel !! z)]> (r_clusters rel)) (r_data rel) idx) in *.
  assert (rel1 = rel0) as ->.
  { unfold sample_at_items in Hs. apply obind_Ok in Hs as (b & Hb & Hs). destruct b.
    2:{ destruct (make_new_distribution D rel0 r1) as [c r3]. apply obind_Ok in Hs as ([[v2 c2] r4] & _ & [= _ <- _]). done. }
    apply obind_Ok in Hs as (z' & Hz' & Hs). apply obind_Ok in Hs as (c & Hc%at_Ok & Hs). apply obind_Ok in Hs as ([[v2 c2] r4] & Hd & [= _ <- _]).
    destruct (rh_blocks _ _ _ Hrel) as [hh Hb'].
    assert (exists h l, c = law_of L h l /\ Forall (law_adm L) l) as (h & l & -> & Hadm).
    { unfold rel0 in Hc. cbn [r_clusters] in Hc. rewrite lookup_insert_Some in Hc.
      assert (forall z c, r_clusters rel !! z = Some c -> exists h l, c = law_of L h l /\ Forall (law_adm L) l) as Hold.
      { intros z1 c1 H1. pose proof (Hb' z1) as H2. rewrite H1 in H2.
        destruct (values_in (block_of A (r_doms rel)) (r_data rel) z1) as [|x l] eqn:El; [done|]. injection H2 as ->.
        exists (hh z1), (x :: l). split; [done|]. rewrite <- El. apply values_in_Forall. intros k w Hk'. by apply (rh_known _ _ _ Hrel k w). }
      destruct Hc as [[_ <-]|[_ Hc]]; [|by apply (Hold z')].
      destruct (r_clusters rel !! z) as [c1|] eqn:E; [by apply (Hold z)|]. exists h0, []. done. }
    apply (Hk h l r1 v2 c2 r4 Hadm) in Hd as ->. unfold set_clusters. rewrite insert_id by done. by unfold rel0. }
  apply obind_Ok in H as (c & Hc & H). apply obind_Ok in H as (c' & Hc' & [= <- <- <- <-]).
  exists r1. unfold rel_incorporate. rewrite Ei. cbn [obind]. rewrite Hc. cbn [obind]. rewrite Hc'. done.
Qed.

(** A distribution object that does nothing, to make a relation with given data. *)
Definition hollow (V : Type) : Dist V := {|
  d_spec := unit; d_state := unit; d_new := fun _ r => (tt, r); d_N_zero := fun _ => true; d_N_pos := fun _ => false;
  d_inc := fun _ _ => UB; d_uninc := fun _ _ => UB; d_logp := fun _ _ => UB; d_score := fun _ => 0%R;
  d_sample := fun _ _ => UB; d_resample := fun _ _ => UB; d_nearest := fun _ _ => UB |}.

Section History.
  Context {V : Type} (E : Emis V) (L : lawful (em_dist E)) (sp : d_spec (em_dist E)) (ds : list string) (base : string).
  Implicit Types (W : world) (b : base_view V) (n : noisy V) (data : gmap items_t V).

  (** The invariant. *)
  Definition noisy_ok W b n data : Prop :=
    n_em n = E /\ n_base n = base /\ r_doms (n_rel n) = ds /\ bv_arity b <= length ds /\ n_data n = data /\
    in_step b n /\ exists A, world_holds W A /\ any_holds (fun _ => Some (bv_arity b)) A (ANoisy n).

  Lemma noisy_incorporate_ok W b n data items v r W' n' r' : noisy_ok W b n data ->
    noisy_incorporate W n b items v r = Ok (W', n', r') -> noisy_ok W' b n' (<[items := v]> data).
  Proof.
    intros (He & Hb & Hds & Hk & Hd & Hst & A & HW & Hn) H.
    assert (exists a, view_of a = b /\ forall a', Some a = Some a' -> Some (bv_arity b) = Some (length (any_doms a'))) as (ab & Hab & Har).
    { destruct b as [k bd]. cbn [bv_arity] in *.
      exists (AClean (hollow V) (Rel (hollow V) (replicate k EmptyString) tt ∅ bd ∅)). unfold view_of. cbn [any_doms any_data r_doms r_data]. rewrite replicate_length. split; [done|].
      intros a' [= <-]. cbn [any_doms r_doms]. by rewrite replicate_length. }
    assert (any_incorporate (fun _ => Some ab) W (ANoisy n) items v r = Ok (W', ANoisy n', r')) as Hi.
    { cbn [any_incorporate base_of idx_ obind]. rewrite Hab, H. done. }
    destruct (any_incorporate_spec (fun _ => Some (bv_arity b)) (fun _ => Some ab) W A (ANoisy n) items v r W' (ANoisy n') r' HW Hn) as (A' & HW' & Hn' & Ht & Hl & Hnone & Hd' & _).
    { intros name a Ha. by apply Har. } { exact Hi. }
    cbn [any_type any_data any_doms] in *.
    unfold noisy_incorporate in H. apply obind_Ok in H as (bi & Hbi & H). apply obind_Ok in H as (bv & Hbv & H).
    apply obind_Ok in H as ([[W1 rel1] r1] & Hr & [= <- <- <-]). cbn [n_set n_rel n_em n_base n_data] in *.
    assert (r_doms rel1 = r_doms (n_rel n)) as Hds' by (by apply (f_equal t_domains) in Ht).
    unfold get_base_items in Hbi. case_bool_decide; [|done]. injection Hbi as <-.
    unfold base_get_value in Hbv. apply obind_Ok in Hbv as (? & _ & Hbv%at_Ok).
    assert (r_data rel1 = <[items := (bv, v)]> (r_data (n_rel n))) as Hrd.
    { unfold rel_incorporate in Hr. apply obind_Ok in Hr as ([[[W2 rel2] z] r2] & Hi2 & Hr). apply obind_Ok in Hr as (? & _ & Hr).
      apply obind_Ok in Hr as (? & _ & [= <- <- <-]). cbn [set_clusters set_data r_data]. f_equal.
      unfold incorporate_items in Hi2. apply obind_Ok in Hi2 as (? & _ & Hi2). apply obind_Ok in Hi2 as ([[W3 idx3] r3] & _ & Hi2).
      apply obind_Ok in Hi2 as (z3 & _ & Hi2). destruct (_ !! z3) as [c0|]; [by injection Hi2 as <- <- <- <-|].
      destruct (make_new_distribution _ _ _) as [c3 r4]. by injection Hi2 as <- <- <- <-. }
    split; [done|]. split; [done|]. split; [etransitivity; [exact Hds'|exact Hds]|]. split; [done|]. split; [cbn [n_set n_data]; by rewrite Hd|]. split; [|by exists A'].

    intros items' p Hp. cbn [n_set n_rel n_data] in Hp |- *. assert (<[items := (bv, v)]> (r_data (n_rel n)) !! items' = Some p) as Hp1 by (rewrite <- Hrd; exact Hp).
    clear Hp. apply lookup_insert_Some in Hp1 as [[<- <-]|[Hne Hp]].
    - rewrite lookup_insert. done.
    - rewrite lookup_insert_ne by done. by apply Hst.
  Qed.

  Lemma noisy_unincorporate_ok W b n data items n' : noisy_ok W b n data ->
    noisy_unincorporate W n b items = Ok n' -> noisy_ok W b n' (delete items data).
  Proof.
    intros (He & Hb & Hds & Hk & Hd & Hst & A & HW & Hn) H.
    unfold noisy_unincorporate in H. apply obind_Ok in H as (? & Hin & H). apply obind_Ok in H as (rel1 & Hr & H).
    apply obind_Ok in H as (m & Hm & [= <-]). pose proof Hn as ([L' Hrel] & Hdata & k & [= <-] & Hkl & Hidx).
    apply assert_Ok, bool_decide_eq_true, elem_of_dom in Hin. pose proof (proj1 (noisy_key n items Hdata) Hin) as [p Hp].
    destruct (rel_unincorporate_spec L' W A (n_rel n) items p HW Hrel Hp) as (rel2 & E2 & Hrel2 & Hd2 & Hsp2 & Hdata2).
    rewrite Hr in E2. injection E2 as <-.
    unfold cleanup_base_to_noisy, get_base_items in Hm. case_bool_decide; [|done]. cbn [obind] in Hm. apply obind_Ok in Hm as (s & Hs%at_Ok & [= <-]).
    split_and!; try done; cbn [n_set n_rel n_data n_b2n n_em].
    - by rewrite Hd2.
    - by rewrite Hd.
    - intros items' q. cbn [n_set n_rel n_data n_em]. rewrite Hdata2. intros [Hne Hq]%lookup_delete_Some. rewrite lookup_delete_ne by done. by apply Hst.
    - exists A. split; [done|]. cbn [any_holds n_set n_rel n_data n_b2n n_em n_base]. split_and!; [by exists L'|by rewrite Hdata2, fmap_delete, Hdata|].
      exists (bv_arity b). split_and!; [done|by rewrite Hd2|]. by apply base_index_delete.
  Qed.

  Lemma noisy_history W b n data : noisy_reach E sp ds base W b n data -> noisy_ok W b n data.
  Proof.
    induction 1 as [W A b n HW Hds Hk Hn|W b n data items v r W' n' r' _ IH H|W b n data items v r W' n' r' _ IH H
      |W b n data items n' _ IH H|W b b' n data _ IH Hk Hb|W b n data c W' rel' _ IH Hc Hok H].
    - unfold noisy_new in Hn. apply obind_Ok in Hn as (rel & Hr & [= <-]).
      destruct (decide (ds = [])) as [->|Hne]. { unfold rel_new in Hr. by rewrite bool_decide_eq_true_2 in Hr. }
      destruct (rel_new_holds (reached_law L) A ds sp Hne (proj1 (Forall_forall _ _) Hds)) as (rel2 & E2 & Hrel & Hdata & Hd2).
      rewrite Hr in E2. injection E2 as <-. split_and!; try done.
      + intros items p. cbn [n_rel n_data n_em]. rewrite Hdata. by rewrite lookup_empty.
      + exists A. split; [done|]. cbn [any_holds n_em n_rel n_data n_b2n n_base]. split_and!; [by exists (reached_law L)|by rewrite Hdata, fmap_empty|].
        exists (bv_arity b). rewrite Hd2. split_and!; [done|done|]. intros bi items. rewrite lookup_empty, lookup_empty. cbn [default from_option]. split; [set_solver|]. by intros [[? ?] _].
    - by eapply noisy_incorporate_ok.
    - apply noisy_sample_incorporates in H as [r1 H]. by eapply noisy_incorporate_ok.
    - by eapply noisy_unincorporate_ok.
    - destruct IH as (He & Hbn & Hds & Hle & Hd & Hst & A & HW & Hn). rewrite <- Hk in *. split_and!; try done.
      + intros items p Hp. destruct (Hst items p Hp) as [H1 H2]. split; [done|]. rewrite <- Hd in Hb. rewrite Hb by (rewrite H1; eauto).
        by rewrite <- Hk in H2.
      + exists A. done.
    - destruct IH as (He & Hbn & Hds & Hle & Hd & Hst & A & HW & Hn). pose proof Hn as ([L' Hrel] & Hdata & k & Hkk & Hkl & Hidx).
      destruct (rel_do_effect L' W A (n_rel n) c W' rel' HW Hrel Hok H) as (A' & HW' & Hrel' & Hd' & Heff).
      assert (r_data rel' = r_data (n_rel n)) as Hrd. { destruct c; try done; cbn [rel_call_effect] in Heff; tauto. }
      split_and!; try done; cbn [n_set n_rel n_data n_b2n n_em].
      + by rewrite Hd'.
      + intros items p. cbn [n_set n_rel n_data n_em]. rewrite Hrd. apply Hst.
      + exists A'. split; [done|]. cbn [any_holds n_set n_rel n_data n_b2n n_em n_base]. split_and!; [by exists L'|by rewrite Hrd|].
        exists k. by rewrite Hd'.
  Qed.
End History.
