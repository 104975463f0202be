(** Theorems about noisy relations (C17) and the transition of latent values (C18). *)
From Coq Require Import String Ascii.
From stdpp Require Import gmap strings list.
From Coq Require Import ZArith Reals Lra Lia.
From Verif Require Import M_base M_math M_crp M_domain M_dist M_distributions M_relation M_noisy M_irm
  S_relation S_irm S_dist S_latent P_base P_crp P_domain P_dist P_math P_relation P_any P_noisy P_latent P_beta_bernoulli P_lgamma P_tally T_irm.

(** * C17 *)
(** Whatever was put into a noisy relation and taken out again: it stores what the user
    put in, its emission stores exactly the pairs (base value, noisy value), the index
    lists under each base tuple exactly the noisy observations over it, and the blocks
    hold exactly the pairs of their members. *)
Theorem C17_history {V} : forall (E : Emis V) sp ds base W b n data,
  lawful (em_dist E) -> noisy_reach E sp ds base W b n data ->
  n_em n = E /\ n_base n = base /\ r_doms (n_rel n) = ds /\
  n_data n = data /\
  (forall items bv nv, r_data (n_rel n) !! items = Some (bv, nv) <->
     data !! items = Some nv /\ bv_data b !! take (bv_arity b) items = Some bv) /\
  (forall items, is_Some (data !! items) -> is_Some (bv_data b !! take (bv_arity b) items)) /\
  base_index_holds (bv_arity b) data (n_b2n n) /\
  exists A (L : lawful (em_dist (n_em n))), world_holds W A /\ rel_holds L A (n_rel n).
Proof.
  intros E sp ds base W b n data L H. destruct (noisy_history E L sp ds base W b n data H) as (He & Hb & Hds & _ & Hd & Hst & A & HW & Hn).
  pose proof Hn as ([L' Hrel] & Hdata & k & [= <-] & _ & Hidx). rewrite Hd in Hidx.
  assert (forall items, is_Some (data !! items) -> exists p, r_data (n_rel n) !! items = Some p) as Hhas.
  { intros items Hi. rewrite <- Hd in Hi. exact (proj1 (noisy_key n items Hdata) Hi). }
  split; [done|]. split; [done|]. split; [done|]. split; [done|]. split; [|split; [|split; [done|by exists A, L']]].
  - intros items bv nv. split.
    + intros Hp. destruct (Hst items _ Hp) as [H1 H2]. rewrite Hd in H1. done.
    + intros [H1 H2]. destruct (Hhas items ltac:(rewrite H1; eauto)) as [[x y] Hp].
      destruct (Hst items _ Hp) as [H3 H4]. rewrite Hd, H1 in H3. rewrite H2 in H4. cbn [fst snd] in *. congruence.
  - intros items Hi. destruct (Hhas items Hi) as [p Hp]. destruct (Hst items p Hp) as [_ H2]. rewrite H2. eauto.
Qed.
Print Assumptions C17_history.

(** Sampling a value into a noisy relation is incorporating the value drawn. *)
Theorem C17_sample_incorporates {V} : forall W (n : noisy V) b items r v W' n' r',
  noisy_sample_and_incorporate W n b items r = Ok (v, W', n', r') ->
  exists r1, noisy_incorporate W n b items v r = Ok (W', n', r1).
Proof. intros. by eapply noisy_sample_incorporates. Qed.
Print Assumptions C17_sample_incorporates.

(** update_value: the value is replaced, but the pair is stored the wrong way round ... *)
Theorem C17_update_value_effect {V} : forall W (n : noisy V) b items v n',
  noisy_update_value W n b items v = Ok n' ->
  exists bv, is_Some (n_data n !! items) /\ bv_data b !! take (bv_arity b) items = Some bv /\
    n_data n' = <[items := v]> (n_data n) /\ n_b2n n' = n_b2n n /\ n_base n' = n_base n /\
    (forall items', (r_data (n_rel n') !! items' : option (V * V)) =
       if decide (items' = items) then Some (v, bv) else r_data (n_rel n) !! items').
Proof.
  intros W n b items v n' H. unfold noisy_update_value in H. apply obind_Ok in H as (? & Hin & H). apply obind_Ok in H as (bv & Hbv & H).
  apply obind_Ok in H as (rel & Hr & [= <-]). apply assert_Ok, bool_decide_eq_true, elem_of_dom in Hin.
  unfold get_base_value, get_base_items in Hbv. case_bool_decide; [|done]. cbn [obind] in Hbv. unfold base_get_value in Hbv. apply obind_Ok in Hbv as (? & _ & Hbv%at_Ok).
  apply rel_update_data in Hr as (_ & _ & Hd & _). exists bv. split_and!; try done. intros items'. cbn [n_set n_rel n_em]. rewrite Hd.
  destruct (decide (items' = items)) as [->|Hne]; [by rewrite lookup_insert|by rewrite lookup_insert_ne].
Qed.
Print Assumptions C17_update_value_effect.

(** ... so afterwards the relation is in step with its base exactly when the new value happens to be the base value. *)
Theorem C17_update_value_in_step_iff {V} : forall W (n : noisy V) b items v n',
  in_step b n -> noisy_update_value W n b items v = Ok n' ->
  in_step b n' <-> bv_data b !! take (bv_arity b) items = Some v.
Proof.
  intros W n b items v n' Hst H. destruct (C17_update_value_effect W n b items v n' H) as (bv & _ & Hbv & Hd & _ & _ & Hr). split.
  - intros Hs. specialize (Hr items). rewrite decide_True in Hr by done. destruct (Hs items _ Hr) as [_ H2]. exact H2.
  - intros Hv items' p Hp. specialize (Hr items'). unfold in_step in Hst. rewrite Hp in Hr. destruct (decide (items' = items)) as [->|Hne].
    + injection Hr as ->. cbn [fst snd]. rewrite Hd, lookup_insert. rewrite Hv in Hbv. by injection Hbv as ->.
    + rewrite Hd, lookup_insert_ne by done. by apply Hst.
Qed.
Print Assumptions C17_update_value_in_step_iff.

(** A noisy relation over the base tuples (1) and (2), used by the examples. *)
Definition C17_base : base_view bool := BaseView 1 (<[[1%Z] := true]> (<[[2%Z] := false]> ∅)).
Definition C17_world : world := {[ "d"%string := dom_new; "c"%string := dom_new ]}.
Lemma C17_world_holds : exists A, world_holds C17_world A /\ Forall (fun d => d ∈ dom A) ["d"%string; "c"%string].
Proof.
  exists {[ "d"%string := ∅; "c"%string := ∅ ]}. split.
  - intros d. unfold C17_world. destruct (decide (d = "d"%string)) as [->|].
    { rewrite !lookup_insert. apply domain_holds_new. }
    destruct (decide (d = "c"%string)) as [->|].
    { rewrite !(lookup_insert_ne _ "d"%string), !lookup_singleton by done. apply domain_holds_new. }
    rewrite !lookup_insert_ne, !lookup_singleton_ne by done. done.
  - repeat constructor; apply elem_of_dom; by eexists.
Qed.
Definition C17_run : outcome (world * noisy bool) :=
  let* n := noisy_new (copy_emission bool) tt ["d"%string; "c"%string] "r"%string in
  let* (W, n, _) := noisy_incorporate C17_world n C17_base [1; 7]%Z false [] in
  let* (W, n, _) := noisy_incorporate W n C17_base [2; 7]%Z true [] in
  let* (_, W, n, _) := noisy_sample_and_incorporate W n C17_base [1; 8]%Z [] in
  let* n := noisy_unincorporate W n C17_base [2; 7]%Z in
  Ok (W, n).
Example C17_example : exists W n, C17_run = Ok (W, n) /\
  noisy_reach (copy_emission bool) tt ["d"%string; "c"%string] "r"%string W C17_base n (delete [2; 7]%Z (<[[1; 8]%Z := true]> (<[[2; 7]%Z := true]> (<[[1; 7]%Z := false]> ∅)))) /\
  n_data n = {[ [1; 7]%Z := false; [1; 8]%Z := true ]}.
Proof.
  assert ((let* (W, n) := C17_run in Ok (n_data n)) = Ok {[ [1; 7]%Z := false; [1; 8]%Z := true ]}) as H by by_compute.
  assert ((let* n := noisy_new (copy_emission bool) tt ["d"%string; "c"%string] "r"%string in
    let* (W, n, _) := noisy_incorporate C17_world n C17_base [1; 7]%Z false [] in
    let* (W, n, _) := noisy_incorporate W n C17_base [2; 7]%Z true [] in
    let* (v, W, n, _) := noisy_sample_and_incorporate W n C17_base [1; 8]%Z [] in Ok v) = Ok true) as Hv by by_compute.
  apply obind_Ok in H as ([W n] & Hr & [= Hd]). exists W, n. split; [done|]. split; [|done].
  unfold C17_run in Hr. apply obind_Ok in Hr as (n0 & H0 & Hr). rewrite H0 in Hv. cbn [obind] in Hv.
  apply obind_Ok in Hr as ([[W1 n1] r1] & H1 & Hr). rewrite H1 in Hv. cbn [obind] in Hv.
  apply obind_Ok in Hr as ([[W2 n2] r2] & H2 & Hr). rewrite H2 in Hv. cbn [obind] in Hv.
  apply obind_Ok in Hr as ([[[v W3] n3] r3] & H3 & Hr). rewrite H3 in Hv. cbn [obind] in Hv. injection Hv as ->.
  apply obind_Ok in Hr as (n4 & H4 & [= <- <-]). destruct C17_world_holds as (A & HW & HA).
  eapply nr_unincorporate; [|exact H4]. eapply nr_sample; [|exact H3]. eapply nr_incorporate; [|exact H2]. eapply nr_incorporate; [|exact H1].
  eapply nr_new; [exact HW|exact HA| |exact H0]. cbn. lia.
Qed.

(** A reachable noisy relation that is out of step with its base after update_value:
    the emission has seen a clean value false and a noisy value true, the base value is true and the observation false. *)
Theorem C17_update_value_refuted : exists W n data n',
  noisy_reach (copy_emission bool) tt ["d"%string; "c"%string] "r"%string W C17_base n data /\
  noisy_update_value W n C17_base [1; 8]%Z false = Ok n' /\
  n_data n' !! [1; 8]%Z = Some false /\ bv_data C17_base !! [1]%Z = Some true /\
  (r_data (n_rel n') !! [1; 8]%Z : option (bool * bool)) = Some (false, true) /\
  ~ in_step C17_base n'.
Proof.
  destruct C17_example as (W & n & Hr & Hreach & Hd).
  assert ((let* (W, n) := C17_run in let* n' := noisy_update_value W n C17_base [1; 8]%Z false in Ok tt) = Ok tt) as H by by_compute.
  rewrite Hr in H. cbn [obind] in H. apply obind_Ok in H as (n' & Hu & _).
  destruct (noisy_history (copy_emission bool) (count_lawful (bool * bool)) _ _ _ _ _ _ _ Hreach) as (_ & _ & _ & _ & _ & Hst & _).
  destruct (C17_update_value_effect _ _ _ _ _ _ Hu) as (bv & _ & Hbv & Hd' & _ & _ & Hp).
  eexists W, n, _, n'. split; [exact Hreach|]. split; [done|]. split; [by rewrite Hd', lookup_insert|]. split; [done|].
  specialize (Hp [1; 8]%Z). rewrite decide_True in Hp by done. assert (bv = true) as -> by by injection Hbv.
  split; [exact Hp|]. intros Hin. apply (C17_update_value_in_step_iff _ _ _ _ _ _ Hst Hu) in Hin. done.
Qed.
Print Assumptions C17_update_value_refuted.

(** * C18 *)
Lemma over_ready {V} base W (n : noisy V) bi u : any_data base !! bi = Some u -> noisy_over base W n ->
  latent_ready bi (length (any_doms base)) u W n.
Proof.
  intros Hu (ar & A & HW & Hn & Hk & Hst). exists ar, A. split_and!; try done. intros items p Hp Ht.
  destruct (Hst items p Hp) as [_ H]. cbn [view_of bv_arity bv_data] in H. rewrite Ht, Hu in H. by injection H as ->.
Qed.
Lemma overs_ready {V} base Ws (ns : list (noisy V)) bi u : any_data base !! bi = Some u -> Forall2 (noisy_over base) Ws ns ->
  Forall2 (latent_ready bi (length (any_doms base)) u) Ws ns.
Proof. intros Hu H. eapply Forall2_impl; [exact H|]. intros. by apply over_ready. Qed.

Lemma after_same {V} bi k W (n : noisy V) v n' : latent_after bi k W n v n' -> same_but_blocks n n'.
Proof.
  intros (A & L & hh & cl & _ & -> & Hb & Hb'). eexists _, _. split; [reflexivity|].
  cbn [with_cl touch n_set n_b2n n_rel n_em set_clusters r_doms r_spec r_data r_data_r r_clusters]. split_and!; try done.
  - intros bi'. destruct (decide (bi' = bi)) as [->|Hne]; [by rewrite lookup_insert|by rewrite lookup_insert_ne].
  - apply set_eq. intros z. rewrite !elem_of_dom. pose proof (Hb z) as H1. pose proof (Hb' z) as H2.
    assert (values_in (block_of A (r_doms (n_rel n))) (r_data (n_rel n)) z <> [] <->
      values_in (block_of A (r_doms (n_rel n))) (pairs_at k bi v (r_data (n_rel n))) z <> []) as Hiff.
    { apply values_in_same_dom. intros i. by rewrite pairs_at_lookup, fmap_is_Some. }
    rewrite H1, H2. destruct (values_in _ (r_data _) z), (values_in _ (pairs_at _ _ _ _) z); split; intros [? ?]; try done; eauto; by destruct Hiff as [Hx Hy]; first [destruct (Hx ltac:(done))|destruct (Hy ltac:(done))].
Qed.

(** The transition, whenever it returns: the base value at [bi] becomes one of the
    candidates, all other base values stay, and the noisy relations keep their values,
    their stored pairs, their index and their set of blocks. *)
Theorem C18_effect {V} : forall lk o Wb Ws bi (base : any_rel V) ns u r base' ns' r',
  orders_ok o -> any_data base !! bi = Some u -> Forall2 (noisy_over base) Ws ns ->
  transition_latent_value lk o Wb Ws bi (base, ns) r = Ok (base', ns', r') ->
  exists v base1 ns1 obss cands r1,
    unincorporate_and_store o Wb Ws bi (base, ns) = Ok (base1, ns1, obss) /\
    candidates o Wb bi base1 ns1 (all_observations o obss) r = Ok (cands, r1) /\ v ∈ cands /\
    any_data base' = <[bi := v]> (any_data base) /\ any_type base' true = any_type base true /\
    Forall2 same_but_blocks ns ns'.
Proof.
  intros lk o Wb Ws bi base ns u r base' ns' r' Ho Hu Hns H.
  destruct (transition_latent_spec lk o Ho Wb Ws bi base ns u r base' ns' r' Hu (overs_ready base Ws ns bi u Hu Hns) H)
    as (base1 & ns1 & obss & cands & r1 & base2 & base3 & v & i & Hs & _ & Hc & _ & _ & _ & Hv & _ & _ & _ & Hd & Ht & Hn).
  exists v, base1, ns1, obss, cands, r1. split_and!; try done.
  - by eapply elem_of_list_lookup_2.
  - clear -Hn. induction Hn; constructor; [by eapply after_same|done].
Qed.
Print Assumptions C18_effect.

(** The weight of every candidate is the same number: the choice ignores how well a
    candidate explains the noisy observations. *)
Theorem C18_equal_weights {V} : forall lk o Wb Ws bi (base : any_rel V) ns u r base' ns' r',
  orders_ok o -> any_data base !! bi = Some u -> Forall2 (noisy_over base) Ws ns ->
  transition_latent_value lk o Wb Ws bi (base, ns) r = Ok (base', ns', r') ->
  exists base1 ns1 obss cands r1 x st,
    unincorporate_and_store o Wb Ws bi (base, ns) = Ok (base1, ns1, obss) /\
    candidates o Wb bi base1 ns1 (all_observations o obss) r = Ok (cands, r1) /\
    incremental_logp lk o Wb Ws bi cands obss (base1, ns1) = Ok (replicate (length cands) x, st).
Proof.
  intros lk o Wb Ws bi base ns u r base' ns' r' Ho Hu Hns H.
  destruct (transition_latent_spec lk o Ho Wb Ws bi base ns u r base' ns' r' Hu (overs_ready base Ws ns bi u Hu Hns) H)
    as (base1 & ns1 & obss & cands & r1 & base2 & base3 & v & i & Hs & _ & Hc & Hl & _).
  exists base1, ns1, obss, cands, r1. eexists _, _. split; [done|]. split; [done|]. exact Hl.
Qed.
Print Assumptions C18_equal_weights.

(** The emission blocks hold the pairs with the new base value ... *)
Theorem C18_noisy_blocks {V} : forall lk o Wb Ws bi (base : any_rel V) ns u r base' ns' r',
  orders_ok o -> any_data base !! bi = Some u -> Forall2 (noisy_over base) Ws ns ->
  transition_latent_value lk o Wb Ws bi (base, ns) r = Ok (base', ns', r') ->
  exists v, any_data base' !! bi = Some v /\
  Forall2 (fun W nn' => exists A (L : lawful (em_dist (n_em nn'.1))) hh rel idx,
      nn'.2 = n_set nn'.1 (n_data nn'.1) idx rel /\ world_holds W A /\
      blocks_hold L hh (block_of A (r_doms rel)) (pairs_at (length (any_doms base)) bi v (r_data rel)) (r_clusters rel)) Ws (zip ns ns').
Proof.
  intros lk o Wb Ws bi base ns u r base' ns' r' Ho Hu Hns H.
  destruct (transition_latent_spec lk o Ho Wb Ws bi base ns u r base' ns' r' Hu (overs_ready base Ws ns bi u Hu Hns) H)
    as (base1 & ns1 & obss & cands & r1 & base2 & base3 & v & i & Hs & _ & Hc & _ & _ & _ & Hv & _ & _ & _ & Hd & Ht & Hn).
  exists v. split; [by rewrite Hd, lookup_insert|]. clear -Hn.
  induction Hn as [|W n n' obs Ws ns ns' obss (A & L & hh & cl & HW & -> & _ & Hb) _ IH]; csimpl; constructor; [|done].
  exists A, L, hh. eexists _, _. split; [reflexivity|]. done.
Qed.
Print Assumptions C18_noisy_blocks.

(** ... but the stored pairs keep the old one, so a noisy relation with an observation
    over [bi] is out of step with the base as soon as the value changes. *)
Theorem C18_out_of_step {V} : forall lk o Wb Ws bi (base : any_rel V) ns u r base' ns' r' i n n' items,
  orders_ok o -> any_data base !! bi = Some u -> Forall2 (noisy_over base) Ws ns ->
  transition_latent_value lk o Wb Ws bi (base, ns) r = Ok (base', ns', r') ->
  any_data base' !! bi <> Some u ->
  ns !! i = Some n -> ns' !! i = Some n' -> is_Some (n_data n !! items) -> take (length (any_doms base)) items = bi ->
  ~ in_step (view_of base') n'.
Proof.
  intros lk o Wb Ws bi base ns u r base' ns' r' i n n' items Ho Hu Hns H Hne Hi Hi' Hx Ht Hst.
  destruct (C18_effect lk o Wb Ws bi base ns u r base' ns' r' Ho Hu Hns H) as (v & _ & _ & _ & _ & _ & _ & _ & _ & Hd & Hty & Hsame).
  destruct (Forall2_lookup_lr _ _ _ _ _ _ Hsame Hi Hi') as (idx & rel & -> & _ & _ & _ & Hrd & _).
  apply Forall2_flip in Hns. destruct (Forall2_lookup_l _ _ _ _ _ Hns Hi) as (W & _ & (ar & A & HW & Hn & Hk & Hst0)).
  destruct Hn as (_ & Hdata & _). destruct (proj1 (noisy_key n items Hdata) Hx) as [p Hp].
  destruct (Hst0 items p Hp) as [_ H1]. cbn [view_of bv_arity bv_data] in H1. rewrite Ht, Hu in H1.
  assert (r_data rel !! items = Some p) as Hp' by by rewrite Hrd. destruct (Hst items p Hp') as [_ H2]. cbn [view_of bv_arity bv_data] in H2.
  rewrite (any_type_doms _ _ _ Hty), Ht in H2. congruence.
Qed.
Print Assumptions C18_out_of_step.

(** The block of a clean base relation goes through exactly this sequence: the old value
    is taken out once more for every candidate and once more at the end. *)
Theorem C18_base_block {V} : forall (D : Dist V) lk o Wb Ws bi (rel : relation D) ns u z r base' ns' r',
  orders_ok o -> r_data rel !! bi = Some u -> get_cluster_assignment D Wb rel bi = Ok z -> Forall2 (noisy_over (AClean D rel)) Ws ns ->
  transition_latent_value lk o Wb Ws bi (AClean D rel, ns) r = Ok (base', ns', r') ->
  exists base1 ns1 obss cands r1 v c c',
    unincorporate_and_store o Wb Ws bi (AClean D rel, ns) = Ok (base1, ns1, obss) /\
    candidates o Wb bi base1 ns1 (all_observations o obss) r = Ok (cands, r1) /\ v ∈ cands /\
    r_clusters rel !! z = Some c /\ foldM (block_do D) c (latent_ops u cands v) = Ok c' /\
    base' = AClean D (Rel D (r_doms rel) (r_spec rel) (<[z := c']> (r_clusters rel)) (<[bi := v]> (r_data rel)) (r_data_r rel)).
Proof.
  intros D lk o Wb Ws bi rel ns u z r base' ns' r' Ho Hu Hz Hns H.
  destruct (transition_latent_spec lk o Ho Wb Ws bi (AClean D rel) ns u r base' ns' r' Hu (overs_ready (AClean D rel) Ws ns bi u Hu Hns) H)
    as (base1 & ns1 & obss & cands & r1 & base2 & base3 & v & i & Hs & Hb1 & Hc & _ & Hb2 & _ & Hv & Hb3 & Hb4 & _).
  destruct (latent_base_clean lk Wb rel bi u z base1 base2 base3 base' cands v Hz Hu Hb1 Hb2 Hb3 Hb4) as (c & c' & Hcz & Hf & ->).
  exists base1, ns1, obss, cands, r1, v, c, c'. split_and!; try done. by eapply elem_of_list_lookup_2.
Qed.
Print Assumptions C18_base_block.

(** When every candidate is the old value, nothing changes. *)
Theorem C18_same_candidates {V} : forall (D : Dist V) (L : lawful D) lk o Wb A Ws bi (rel : relation D) ns u r base' ns' r',
  orders_ok o -> world_holds Wb A -> rel_holds L A rel -> r_data rel !! bi = Some u -> Forall2 (noisy_over (AClean D rel)) Ws ns ->
  transition_latent_value lk o Wb Ws bi (AClean D rel, ns) r = Ok (base', ns', r') ->
  (forall base1 ns1 obss cands r1, unincorporate_and_store o Wb Ws bi (AClean D rel, ns) = Ok (base1, ns1, obss) ->
     candidates o Wb bi base1 ns1 (all_observations o obss) r = Ok (cands, r1) -> Forall (eq u) cands) ->
  base' = AClean D rel.
Proof.
  intros D L lk o Wb A Ws bi rel ns u r base' ns' r' Ho HW Hrel Hu Hns H Hall.
  destruct (rh_known _ _ _ Hrel bi u Hu) as [[z Hz] Ha].
  assert (get_cluster_assignment D Wb rel bi = Ok z) as Hg by by apply (get_cluster_assignment_Ok Wb A HW).
  destruct (C18_base_block D lk o Wb Ws bi rel ns u z r base' ns' r' Ho Hu Hg Hns H)
    as (base1 & ns1 & obss & cands & r1 & v & c & c' & Hs & Hc & Hv & Hcz & Hf & ->).
  pose proof (Hall _ _ _ _ _ Hs Hc) as Heq. assert (v = u) as ->. { symmetry. exact (proj1 (Forall_forall _ _) Heq v Hv). }
  rewrite insert_id with (m := r_data rel) by done. assert (c' = c) as ->; [|rewrite insert_id by done; by destruct rel].
  destruct (rh_blocks _ _ _ Hrel) as [hh Hb]. pose proof (Hb z) as Hbz. rewrite Hcz in Hbz.
  assert (exists h l, c = law_of L h (u :: l) /\ Forall (law_adm L) (u :: l)) as (h & l & -> & Hadm).
  { pose proof (values_in_delete (block_of A (r_doms rel)) (r_data rel) bi u z Hu) as Hp. rewrite decide_True in Hp by done.
    assert (Forall (law_adm L) (values_in (block_of A (r_doms rel)) (r_data rel) z)) as Hf2.
    { apply values_in_Forall. intros k w Hk. by apply (rh_known _ _ _ Hrel k w). }
    exists (hh z), (values_in (block_of A (r_doms rel)) (delete bi (r_data rel)) z). split; [|by rewrite <- Hp].
    rewrite <- (law_perm _ L _ _ _ Hp). destruct (values_in (block_of A (r_doms rel)) (r_data rel) z) as [|w l]; [done|]. by injection Hbz. }
  assert (Forall (law_adm L) l) as Hl by by apply Forall_cons in Hadm as [_ ?].
  assert (d_uninc D (law_of L h (u :: l)) u = Ok (law_of L h l)) as Hout by by apply law_uninc.
  assert (d_inc D (law_of L h l) u = Ok (law_of L h (u :: l))) as Hin by by apply law_inc.
  unfold latent_ops in Hf. cbn [app foldM block_do] in Hf. rewrite Hout in Hf. cbn [obind] in Hf. rewrite foldM_app in Hf.
  assert (forall cands, Forall (eq u) cands -> foldM (block_do D) (law_of L h l) (cands ≫= fun v => [BIn v; BOut u]) = Ok (law_of L h l)) as Hloop.
  { clear -Hout Hin. induction cands as [|w cands IH]; intros H; csimpl; [done|]. apply Forall_cons in H as [<- H]. cbn [foldM block_do].
    rewrite Hin. cbn [obind]. rewrite Hout. cbn [obind]. by apply IH. }
  rewrite (Hloop cands Heq) in Hf. cbn [obind foldM block_do] in Hf. rewrite Hin in Hf. cbn [obind] in Hf. rewrite Hout in Hf. cbn [obind] in Hf.
  rewrite Hin in Hf. by injection Hf.
Qed.
Print Assumptions C18_same_candidates.

(** ** The block statistics of a BetaBernoulli base *)
Definition b2z (x : bool) : Z := if x then 1 else 0.
Lemma bb_in b x : bb_incorporate b x 1 = BB (bb_alpha b) (bb_beta b) (bb_N b + 1) (bb_s b + b2z x).
Proof.
  unfold bb_incorporate. f_equal. rewrite <- (to_int_IZR (bb_s b + b2z x)). f_equal. rewrite plus_IZR. destruct x; cbn [b2r b2z]; lra.
Qed.
Lemma bb_out b x : bb_unincorporate b x = BB (bb_alpha b) (bb_beta b) (bb_N b - 1) (bb_s b - b2z x).
Proof.
  unfold bb_unincorporate, bb_incorporate. f_equal. rewrite <- (to_int_IZR (bb_s b - b2z x)). f_equal. rewrite minus_IZR. destruct x; cbn [b2r b2z]; lra.
Qed.
Lemma bb_ops lg b u cands v c' : foldM (block_do (bb_dist lg)) b (latent_ops u cands v) = Ok c' ->
  c' = BB (bb_alpha b) (bb_beta b) (bb_N b)
    (bb_s b + foldr Z.add 0 ((fun w => b2z w - b2z u) <$> cands) + 2 * (b2z v - b2z u))%Z.
Proof.
  unfold latent_ops. cbn [app foldM block_do bb_dist d_uninc obind]. rewrite foldM_app.
  assert (forall cands b, foldM (block_do (bb_dist lg)) b (cands ≫= fun w => [BIn w; BOut u]) =
    Ok (BB (bb_alpha b) (bb_beta b) (bb_N b) (bb_s b + foldr Z.add 0 ((fun w => b2z w - b2z u) <$> cands))%Z : d_state (bb_dist lg))) as Hloop.
  { clear. induction cands as [|w cands IH]; intros b; csimpl.
    - f_equal. rewrite Z.add_0_r. by destruct b.
    - cbn [foldM block_do bb_dist d_inc d_uninc obind]. rewrite IH. repeat first [rewrite bb_in|rewrite bb_out]. cbn [bb_alpha bb_beta bb_N bb_s]. f_equal. f_equal; [lra|lia]. }
  rewrite Hloop. cbn [obind foldM block_do bb_dist d_inc d_uninc]. repeat first [rewrite bb_in|rewrite bb_out]. cbn [bb_alpha bb_beta bb_N bb_s].
  intros [= <-]. f_equal; [lra|lia].
Qed.

(** What the block of the changed observation ends up with: the number of members is right, the
    number of heads is off by the candidates tried and counts the change twice. *)
Theorem C18_bernoulli_drift : forall lg lk o Wb Ws bi (rel : relation (bb_dist lg)) ns u z r base' ns' r',
  orders_ok o -> r_data rel !! bi = Some u -> get_cluster_assignment (bb_dist lg) Wb rel bi = Ok z ->
  Forall2 (noisy_over (AClean (bb_dist lg) rel)) Ws ns ->
  transition_latent_value lk o Wb Ws bi (AClean (bb_dist lg) rel, ns) r = Ok (base', ns', r') ->
  exists base1 ns1 obss cands r1 v c c' rel',
    unincorporate_and_store o Wb Ws bi (AClean (bb_dist lg) rel, ns) = Ok (base1, ns1, obss) /\
    candidates o Wb bi base1 ns1 (all_observations o obss) r = Ok (cands, r1) /\ v ∈ cands /\
    base' = AClean (bb_dist lg) rel' /\ r_data rel' !! bi = Some v /\ r_clusters rel !! z = Some c /\ r_clusters rel' !! z = Some c' /\
    bb_N c' = bb_N c /\
    bb_s c' = (bb_s c + foldr Z.add 0 ((fun w => b2z w - b2z u) <$> cands) + 2 * (b2z v - b2z u))%Z.
Proof.
  intros lg lk o Wb Ws bi rel ns u z r base' ns' r' Ho Hu Hz Hns H.
  destruct (C18_base_block (bb_dist lg) lk o Wb Ws bi rel ns u z r base' ns' r' Ho Hu Hz Hns H)
    as (base1 & ns1 & obss & cands & r1 & v & c & c' & Hs & Hc & Hv & Hcz & Hf & ->).
  apply bb_ops in Hf. exists base1, ns1, obss, cands, r1, v, c, c'. eexists. split; [done|]. split; [done|]. split; [done|]. split; [reflexivity|].
  cbn [r_data r_clusters]. rewrite !lookup_insert. rewrite Hf. done.
Qed.
Print Assumptions C18_bernoulli_drift.

(** So whenever the transition changes a value of a BetaBernoulli relation, the relation's
    statistics stop being those of its data. *)
Theorem C18_statistics_wrong : forall lg lk o Wb A Ws bi (rel : relation (bb_dist lg)) ns u r base' ns' r',
  orders_ok o -> world_holds Wb A -> rel_holds (bb_lawful lg) A rel -> r_data rel !! bi = Some u ->
  Forall2 (noisy_over (AClean (bb_dist lg) rel)) Ws ns ->
  transition_latent_value lk o Wb Ws bi (AClean (bb_dist lg) rel, ns) r = Ok (base', ns', r') ->
  exists rel', base' = AClean (bb_dist lg) rel' /\
    (r_data rel' !! bi <> Some u -> ~ rel_holds (bb_lawful lg) A rel').
Proof.
  intros lg lk o Wb A Ws bi rel ns u r base' ns' r' Ho HW Hrel Hu Hns H.
  destruct (rh_known _ _ _ Hrel bi u Hu) as [[z Hz] _].
  assert (get_cluster_assignment (bb_dist lg) Wb rel bi = Ok z) as Hg by by apply (get_cluster_assignment_Ok Wb A HW).
  destruct (C18_base_block (bb_dist lg) lk o Wb Ws bi rel ns u z r _ ns' r' Ho Hu Hg Hns H)
    as (base1 & ns1 & obss & cands & r1 & v & c & c' & Hs & Hc & Hv & Hcz & Hf & ->).
  eexists. split; [reflexivity|]. intros Hne Hrel'.
  cbn [r_data] in Hne. rewrite lookup_insert in Hne. assert (v <> u) as Hvu by congruence.
  apply bb_ops in Hf. destruct (rh_blocks _ _ _ Hrel) as [hh Hb]. destruct (rh_blocks _ _ _ Hrel') as [hh' Hb'].
  specialize (Hb z). specialize (Hb' z). cbn [r_doms r_data r_clusters] in Hb'. rewrite lookup_insert in Hb'. rewrite Hcz in Hb.
  set (g := block_of A (r_doms rel)) in *.
  pose proof (values_in_delete g (r_data rel) bi u z Hu) as Hp. rewrite decide_True in Hp by done.
  pose proof (values_in_delete g (<[bi := v]> (r_data rel)) bi v z (lookup_insert _ _ _)) as Hp'. rewrite decide_True in Hp' by done.
  rewrite delete_insert_delete in Hp'. set (l := values_in g (delete bi (r_data rel)) z) in *.
  assert (bb_s c = Z.of_nat (occurrences true (u :: l))) as Hsc.
  { rewrite <- (occurrences_perm true _ _ Hp). destruct (values_in g (r_data rel) z); [done|]. by injection Hb as ->. }
  assert (bb_s c' = Z.of_nat (occurrences true (v :: l))) as Hsc'.
  { rewrite <- (occurrences_perm true _ _ Hp'). destruct (values_in g (<[bi:=v]> (r_data rel)) z); [done|]. by injection Hb' as ->. }
  rewrite Hf in Hsc'. cbn [bb_s] in Hsc'. rewrite Hsc, !occurrences_cons, !Nat2Z.inj_add in Hsc'.
  assert (forall cands, v ∈ cands -> match u with true => foldr Z.add 0 ((fun w => b2z w - b2z true) <$> cands) <= -1 | false => 1 <= foldr Z.add 0 ((fun w => b2z w - b2z false) <$> cands) end)%Z as Hsum.
  { assert (forall cands, match u with true => foldr Z.add 0 ((fun w => b2z w - b2z true) <$> cands) <= 0 | false => 0 <= foldr Z.add 0 ((fun w => b2z w - b2z false) <$> cands) end)%Z as Hw.
    { clear. induction cands as [|w cands IH]; csimpl; [by destruct u|]. destruct u, w; cbn [b2z] in *; lia. }
    clear -Hw Hvu. induction cands as [|w cands IH]; intros Hin; [by apply elem_of_nil in Hin|]. csimpl. specialize (Hw cands).
    apply elem_of_cons in Hin as [<-|Hin]; [destruct u, v; cbn [b2z] in *; try done; lia|]. specialize (IH Hin). destruct u, w; cbn [b2z] in *; lia. }
  specialize (Hsum cands Hv). destruct u, v; try done; cbn [b2z] in *;
    repeat match goal with H : context [decide (?a = ?b)] |- _ => first [rewrite decide_True in H by done|rewrite decide_False in H by done] end; lia.
Qed.
Print Assumptions C18_statistics_wrong.

(** A run: one observation false of a latent BetaBernoulli relation, one noisy observation
    true over it. *)
Definition C18_start lg : outcome (world * relation (bb_dist lg) * noisy bool) :=
  let* rel := rel_new (bb_dist lg) ["d"%string] tt in
  let* (W, rel, _) := rel_incorporate (bb_dist lg) C17_world rel [1]%Z false [] in
  let* n := noisy_new (copy_emission bool) tt ["d"%string] "r"%string in
  let* (W, n, _) := noisy_incorporate W n (view_of (AClean (bb_dist lg) rel)) [1]%Z true [] in
  Ok (W, rel, n).
Lemma C18_start_spec lg : exists W rel n A z, C18_start lg = Ok (W, rel, n) /\ world_holds W A /\ rel_holds (bb_lawful lg) A rel /\
  r_data rel = {[ [1]%Z := false ]} /\ n_data n = {[ [1]%Z := true ]} /\ noisy_over (AClean (bb_dist lg) rel) W n /\ n_em n = copy_emission bool /\
  get_cluster_assignment (bb_dist lg) W rel [1]%Z = Ok z /\ is_Some (r_clusters rel !! z) /\ r_doms rel = ["d"%string] /\
  forall base1 ns1 obss, unincorporate_and_store some_orders W [W] [1]%Z (AClean (bb_dist lg) rel, [n]) = Ok (base1, ns1, obss) ->
    candidates some_orders W [1]%Z base1 ns1 (all_observations some_orders obss) [] = Ok ([true], []).
Proof.
  assert ((let* (W, rel, n) := C18_start lg in
    let* (base1, ns1, obss) := unincorporate_and_store some_orders W [W] [1]%Z (AClean (bb_dist lg) rel, [n]) in
    candidates some_orders W [1]%Z base1 ns1 (all_observations some_orders obss) []) = Ok ([true], [])) as Hc by (vm_compute; reflexivity).
  assert ((let* (W, rel, n) := C18_start lg in Ok (r_data rel, n_data n)) = Ok ({[ [1]%Z := false ]}, {[ [1]%Z := true ]})) as Hd by (vm_compute; reflexivity).
  apply obind_Ok in Hd as ([[W rel] n] & Hs & [= Hd1 Hd2]). rewrite Hs in Hc. cbn [obind] in Hc.
  destruct C17_world_holds as (A0 & HW0 & HA0). pose proof Hs as Hs0. unfold C18_start in Hs0.
  destruct (rel_new_holds (bb_lawful lg) A0 ["d"%string] tt) as (rel0 & E0 & Hrel0 & Hdat0 & Hds0); [done| |].
  { intros d Hd. apply (proj1 (Forall_forall _ _) HA0). set_solver. }
  rewrite E0 in Hs0. cbn [obind] in Hs0.
  destruct (rel_incorporate_spec (bb_lawful lg) C17_world A0 rel0 [1]%Z false [] HW0 Hrel0) as (W1 & A1 & rel1 & r1 & E1 & HW1 & Hrel1 & Hds1 & Hsp1 & Hdat1 & Hext1).
  { by rewrite Hds0. } { by rewrite Hdat0. } { done. }
  rewrite E1 in Hs0. cbn [obind] in Hs0. apply obind_Ok in Hs0 as (n0 & En & Hs0). apply obind_Ok in Hs0 as ([[W2 n2] r2] & Ei & [= -> -> ->]).
  assert (noisy_reach (copy_emission bool) tt ["d"%string] "r"%string W (view_of (AClean (bb_dist lg) rel)) n (<[[1]%Z := true]> ∅)) as Hreach.
  { eapply nr_incorporate; [|exact Ei]. eapply (nr_new _ _ _ _ W1 A1); [done| | |exact En].
    - constructor; [|constructor]. destruct Hext1 as [-> _]. apply (proj1 (Forall_forall _ _) HA0). left.
    - cbn [view_of bv_arity any_doms]. rewrite Hds1, Hds0. done. }
  pose proof (noisy_history (copy_emission bool) (count_lawful (bool * bool)) _ _ _ _ _ _ _ Hreach) as (Hem & Hb & Hdn & _ & _ & Hst & A & HW & Hn).
  assert (exists A2, world_holds W A2 /\ clustering_extends A1 A2 (zip (r_doms (n_rel n0)) [1%Z])) as (A2 & HW2 & Hext2).
  { unfold noisy_incorporate in Ei. apply obind_Ok in Ei as (bi & _ & Ei). apply obind_Ok in Ei as (bv & _ & Ei). apply obind_Ok in Ei as ([[W3 rel3] r3] & Ei & [= <- _ _]).
    unfold noisy_new in En. apply obind_Ok in En as (reln & En & [= <-]).
    destruct (rel_new_holds (count_lawful (bool * bool)) A1 ["d"%string] tt) as (rel9 & E9 & Hrel9 & Hdat9 & Hds9); [done| |].
    { intros d Hd. destruct Hext1 as [-> _]. apply (proj1 (Forall_forall _ _) HA0). set_solver. }
    change (rel_new (em_dist (copy_emission bool)) ["d"%string] tt = Ok reln) in En.
    assert (reln = rel9) as ->. { change (em_dist (copy_emission bool)) with (count_dist (bool * bool)) in *. rewrite E9 in En. by injection En. }
    destruct (rel_incorporate_spec (count_lawful (bool * bool)) W1 A1 rel9 [1]%Z (bv, true) [] HW1 Hrel9) as (W4 & A4 & rel4 & r4 & E4 & HW4 & _ & _ & _ & _ & Hext4).
    { by rewrite Hds9. } { by rewrite Hdat9. } { done. }
    cbn [n_em n_rel] in Ei. change (rel_incorporate (count_dist (bool * bool)) W1 rel9 [1%Z] (bv, true) [] = Ok (W3, rel3, r3)) in Ei.
    rewrite Ei in E4. injection E4 as -> -> ->. exists A4. done. }
  assert (rel_holds (bb_lawful lg) A2 rel) as Hrel2. { eapply rel_holds_extend; [exact Hext2|exact Hrel1]. }
  destruct (rh_known _ _ _ Hrel2 [1]%Z false ltac:(by rewrite Hd1)) as [[z Hz] _].
  exists W, rel, n, A2, z. split; [done|]. split; [done|]. split; [done|]. split; [done|]. split; [done|]. split.
  { exists (fun _ => Some (length (any_doms (AClean (bb_dist lg) rel)))), A. split; [done|]. split; [exact Hn|]. split; [done|exact Hst]. }
  split; [done|]. split; [by apply (get_cluster_assignment_Ok W A2 HW2)|]. split.
  { destruct (rh_blocks _ _ _ Hrel2) as [hh Hbl]. specialize (Hbl z). rewrite Hbl.
    pose proof (values_in_delete (block_of A2 (r_doms rel)) (r_data rel) [1]%Z false z ltac:(by rewrite Hd1)) as Hp. rewrite decide_True in Hp by done.
    destruct (values_in (block_of A2 (r_doms rel)) (r_data rel) z); [by apply Permutation_nil_cons in Hp|]. eauto. }
  split; [by rewrite Hds1, Hds0|]. intros base1 ns1 obss E. rewrite E in Hc. exact Hc.
Qed.

(** On that run the transition returns; the value becomes true, the block counts three
    heads for its one observation, and the noisy relation is out of step. *)
Theorem C18_statistics_refuted : forall lg, exists o W A (rel rel' : relation (bb_dist lg)) n n' r r',
  orders_ok o /\ world_holds W A /\ rel_holds (bb_lawful lg) A rel /\ noisy_over (AClean (bb_dist lg) rel) W n /\
  r_data rel = {[ [1]%Z := false ]} /\ n_data n = {[ [1]%Z := true ]} /\
  transition_latent_value (fun _ => None) o W [W] [1]%Z (AClean (bb_dist lg) rel, [n]) r = Ok (AClean (bb_dist lg) rel', [n'], r') /\
  r_data rel' = {[ [1]%Z := true ]} /\
  (exists z c, r_clusters rel' !! z = Some c /\ bb_N c = 1%R /\ bb_s c = 3%Z) /\
  ~ rel_holds (bb_lawful lg) A rel' /\ ~ in_step (view_of (AClean (bb_dist lg) rel')) n'.
Proof.
  intros lg. destruct (C18_start_spec lg) as (W & rel & n & A & z & _ & HW & Hrel & Hd & Hdn & Hover & Hem & Hz & Hcz & Hds & Hcand).
  assert (Forall2 (noisy_over (AClean (bb_dist lg) rel)) [W] [n]) as Hns by (constructor; [done|constructor]).
  assert (r_data rel !! [1]%Z = Some false) as Hu by by rewrite Hd.
  destruct (latent_total (fun _ => None) some_orders some_orders_ok W [W] [1]%Z rel [n] false z [] [true] []) as ([[base' ns'] r'] & Ht).
  { intros s v. eauto. } { intros s v. eauto. } { constructor; [|constructor]. rewrite Hem. intros s v. eauto. }
  { done. } { done. } { done. } { exact (overs_ready (AClean (bb_dist lg) rel) [W] [n] [1]%Z false Hu Hns). } { exact Hcand. } { done. }
  destruct (C18_base_block (bb_dist lg) (fun _ => None) some_orders W [W] [1]%Z rel [n] false z [] base' ns' r' some_orders_ok Hu Hz Hns Ht)
    as (base1 & ns1 & obss & cands & r1 & v & c & c' & Hs & Hc & Hv & Hcl & Hf & Hbase).
  rewrite (Hcand _ _ _ Hs) in Hc. injection Hc as <- <-. apply elem_of_list_singleton in Hv as ->.
  destruct (C18_effect (fun _ => None) some_orders W [W] [1]%Z (AClean (bb_dist lg) rel) [n] false [] base' ns' r' some_orders_ok Hu Hns Ht)
    as (_ & _ & _ & _ & _ & _ & _ & _ & _ & _ & _ & Hsame).
  destruct ns' as [|n' ns']; [by inversion Hsame|]. destruct ns'; [|apply Forall2_length in Hsame; done]. subst base'.
  apply bb_ops in Hf. destruct (rh_blocks _ _ _ Hrel) as [hh Hb]. pose proof (Hb z) as Hbz. rewrite Hcl in Hbz.
  assert (values_in (block_of A (r_doms rel)) (r_data rel) z = [false]) as Hval.
  { assert (block_of A (r_doms rel) [1]%Z = Some z) as Hg by by apply (get_cluster_assignment_Ok W A HW).
    apply Permutation_singleton_r. rewrite (values_in_delete _ _ [1]%Z false z Hu), decide_True by done. rewrite Hd, delete_singleton, values_in_empty. done. }
  rewrite Hval in Hbz. injection Hbz as Hc0. 
  eexists some_orders, W, A, rel, _, n, n', [], r'. split; [apply some_orders_ok|]. split; [done|]. split; [done|]. split; [done|]. split; [done|]. split; [done|].
  split; [exact Ht|]. cbn [r_data r_clusters]. split; [by rewrite Hd, insert_singleton|]. split.
  { exists z, c'. rewrite lookup_insert. split; [done|]. rewrite Hf, Hc0. cbn [bb_N bb_s]. split; [cbn; lra|reflexivity]. }
  split.
  - destruct (C18_statistics_wrong lg (fun _ => None) some_orders W A [W] [1]%Z rel [n] false [] _ _ _ some_orders_ok HW Hrel Hu Hns Ht) as (rel' & E & Hw).
    intros Hrel'. clear Hw E.
    destruct (rh_blocks _ _ _ Hrel') as [hh' Hb']. specialize (Hb' z). cbn [r_doms r_data r_clusters] in Hb'. rewrite lookup_insert in Hb'.
    pose proof (values_in_delete (block_of A (r_doms rel)) (<[[1]%Z := true]> (r_data rel)) [1]%Z true z (lookup_insert _ _ _)) as Hp.
    assert (block_of A (r_doms rel) [1]%Z = Some z) as Hg by by apply (get_cluster_assignment_Ok W A HW).
    rewrite decide_True in Hp by done. rewrite delete_insert_delete, Hd, delete_singleton, values_in_empty in Hp. rewrite Hd in Hb'.
    apply Permutation_singleton_r in Hp. rewrite Hp in Hb'. injection Hb' as Hb'. rewrite Hf, Hc0 in Hb'. apply (f_equal bb_s) in Hb'. done.
  - eapply (C18_out_of_step (fun _ => None) some_orders W [W] [1]%Z (AClean (bb_dist lg) rel) [n] false [] _ [n'] r' 0 n n' [1]%Z some_orders_ok Hu Hns Ht); [|done|done| |].
    + cbn [any_data r_data]. by rewrite lookup_insert.
    + by rewrite Hdn.
    + cbn [any_doms]. by rewrite Hds.
Qed.
Print Assumptions C18_statistics_refuted.

(** The hypotheses of the C18 theorems are met by that run, with a transition that returns. *)
Example C18_example lg : exists o W (rel : relation (bb_dist lg)) n r st,
  orders_ok o /\ r_data rel !! [1]%Z = Some false /\ Forall2 (noisy_over (AClean (bb_dist lg) rel)) [W] [n] /\
  is_Some (n_data n !! [1]%Z) /\ transition_latent_value (fun _ => None) o W [W] [1]%Z (AClean (bb_dist lg) rel, [n]) r = Ok st.
Proof.
  destruct (C18_statistics_refuted lg) as (o & W & A & rel & rel' & n & n' & r & r' & Ho & _ & _ & Hn & Hd & Hdn & Ht & _).
  exists o, W, rel, n, r. eexists. split; [done|]. split; [by rewrite Hd|]. split; [constructor; [done|constructor]|]. split; [by rewrite Hdn|exact Ht].
Qed.
