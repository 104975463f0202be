(** C18, continued: where the candidates of a latent-value transition come from. *)
From Coq Require Import String Ascii.
From stdpp Require Import gmap strings list.
From Coq Require Import ZArith Reals Lia.
From Verif Require Import M_base M_math M_crp M_domain M_dist M_relation M_noisy
  S_relation S_irm S_latent P_base P_crp P_domain P_relation P_any P_noisy P_latent P_tally T_irm T_latent.

(** The noisy values over the base tuple [bi], with repetitions. *)
Definition values_over {V} (k : nat) (bi : items_t) (n : noisy V) : list V :=
  (map_to_list (filter (fun kv => take k kv.1 = bi) (n_data n))).*2.
(** The emission blocks of the noisy relations. *)
Definition emission_blocks {V} (ns : list (noisy V)) : list (noisy V * list Z) :=
  ns ≫= fun n => (fun z => (n, z)) <$> elements (dom (r_clusters (n_rel n))).

Lemma store_loop_inv {V} W l : forall (n1 : noisy V) obs0 n2 obs,
  foldM (store_step W) (n1, obs0) l = Ok (n2, obs) ->
  n_data n2 = n_data n1 /\ dom (r_clusters (n_rel n2)) = dom (r_clusters (n_rel n1)) /\
  (forall k, k ∈ l -> is_Some (n_data n1 !! k)) /\
  forall k, obs !! k = if decide (k ∈ l) then n_data n1 !! k else obs0 !! k.
Proof.
  induction l as [|k l IH]; intros n1 obs0 n2 obs H; cbn [foldM] in H.
  - injection H as <- <-. split; [done|]. split; [done|]. split; [by intros k ?%elem_of_nil|]. intros k. by rewrite decide_False by apply not_elem_of_nil.
  - apply obind_Ok in H as ([n1' obs1] & H1 & H). unfold store_step in H1. apply obind_Ok in H1 as (v & Hv & H1).
    apply obind_Ok in H1 as (n' & Hn & [= <- <-]). destruct (IH _ _ _ _ H) as (Hd & Hc & Hl & Ho).
    unfold noisy_unincorporate_from_cluster in Hn. apply obind_Ok in Hn as (rel & Hr & [= <-]).
    cbn [n_set n_data n_rel n_em] in Hd, Hc, Hl, Ho.
    unfold noisy_get_value in Hv. apply obind_Ok in Hv as ([] & _ & Hv). unfold at_ in Hv.
    destruct (n_data n1 !! k) as [v'|] eqn:Ev; [|done]. injection Hv as ->.
    unfold unincorporate_from_cluster in Hr. apply obind_Ok in Hr as (z & _ & Hr). apply obind_Ok in Hr as ([] & Hz & Hr).
    apply obind_Ok in Hr as (w & _ & Hr). apply obind_Ok in Hr as (c & _ & Hr). apply obind_Ok in Hr as (c' & _ & [= <-]).
    unfold assert_ in Hz. case_bool_decide as Hz'; [|done].
    split_and!; [done| | |].
    + rewrite Hc. unfold set_clusters; cbn [r_clusters]. rewrite dom_insert_L. set_solver.
    + intros k' [->|Hk']%elem_of_cons; [by eauto|by apply Hl].
    + intros k'. rewrite Ho. destruct (decide (k' ∈ l)) as [Hk'|Hk'].
      * by rewrite decide_True by by right.
      * destruct (decide (k' = k)) as [->|Hne].
        -- by rewrite lookup_insert, decide_True by left.
        -- rewrite lookup_insert_ne by done. rewrite decide_False; [done|]. by intros [?|?]%elem_of_cons.
Qed.

Section Proposals.
  Context {V : Type} (o : orders) (Ho : orders_ok o).
  Lemma store_noisy_obs bi k u W (n n' : noisy V) obs :
    latent_ready bi k u W n -> store_noisy o W bi n = Ok (n', obs) ->
    n_data n' = n_data n /\ dom (r_clusters (n_rel n')) = dom (r_clusters (n_rel n)) /\
    obs = filter (fun kv => take k kv.1 = bi) (n_data n).
  Proof.
    intros (ar & A & HW & Hn & Hk & Hu) H. destruct (over_spec o Ho bi k n ar A Hn Hk) as [_ Hov].
    unfold store_noisy in H. destruct (store_loop_inv _ _ _ _ _ _ H) as (Hd & Hc & Hl & Hobs).
    cbn [n_set n_data n_rel n_em] in Hd, Hc, Hl, Hobs. split; [done|]. split; [done|].
    pose proof Hn as (_ & Hnd & _). fold (over o bi n) in Hobs.
    apply map_eq. intros i. rewrite Hobs. rewrite lookup_empty. destruct (n_data n !! i) as [v|] eqn:Ev.
    - destruct (decide (i ∈ over o bi n)) as [Hi|Hi].
      + symmetry. apply map_filter_lookup_Some. split; [done|]. simpl. by apply Hov.
      + symmetry. apply map_filter_lookup_None. right. intros v' Hv'. simpl. intros Ht. apply Hi, Hov. split; [|done].
        rewrite Hnd, lookup_fmap in Ev. destruct (r_data (n_rel n) !! i) as [p|]; [by eauto|done].
    - transitivity (@None V); [by destruct (decide _)|]. symmetry. apply map_filter_lookup_None. by left.
  Qed.
  Lemma all_observations_perm obss :
    all_observations o obss ≡ₚ obss ≫= fun obs : gmap items_t V => (map_to_list obs).*2.
  Proof.
    unfold all_observations. induction obss as [|obs obss IH]; csimpl; [done|]. apply Permutation_app; [|done].
    destruct Ho as (Hv & _). rewrite Hv. clear IH.
    assert (elements (dom obs) ≡ₚ (map_to_list obs).*1) as ->.
    { apply NoDup_Permutation; [apply NoDup_elements|apply NoDup_fst_map_to_list|].
      intros i. rewrite elem_of_elements, elem_of_dom, elem_of_list_fmap. split.
      - intros [v Hv']. exists (i, v). split; [done|]. by apply elem_of_map_to_list.
      - intros ([i' v] & -> & Hin). apply elem_of_map_to_list in Hin. simpl. by eauto. }
    assert (forall l, (forall kv, kv ∈ l -> obs !! kv.1 = Some kv.2) -> omap (fun items => obs !! items) l.*1 = l.*2) as Hl.
    { induction l as [|[i v] l IH]; intros Hl; csimpl; [done|]. pose proof (Hl (i, v) (elem_of_list_here _ _)) as Hiv. simpl in Hiv. rewrite Hiv.
      rewrite IH; [done|]. intros kv ?. apply Hl. by right. }
    rewrite Hl; [done|]. intros [i v] Hin. by apply elem_of_map_to_list.
  Qed.
  Lemma propose_loop Wb bi (base : any_rel V) all n l : forall c0 r0 c1 r1,
    foldM (propose_one Wb bi base all n) (c0, r0) l = Ok (c1, r1) ->
    exists cs, c1 = c0 ++ cs /\
      Forall2 (fun z v => exists c p s s1 s2, r_clusters (n_rel n) !! z = Some c /\
        em_propose (n_em n) c all s = Ok (p, s1) /\ any_nearest Wb base p bi s1 = Ok (v, s2)) l cs.
  Proof.
    induction l as [|z l IH]; intros c0 r0 c1 r1 H; cbn [foldM] in H.
    - injection H as <- <-. exists []. split; [by rewrite app_nil_r|constructor].
    - apply obind_Ok in H as ([c' r'] & H1 & H). unfold propose_one in H1. apply obind_Ok in H1 as (c & Hc & H1).
      apply obind_Ok in H1 as ([p s1] & Hp & H1). apply obind_Ok in H1 as ([v s2] & Hv & [= <- <-]).
      destruct (IH _ _ _ _ H) as (cs & -> & Hcs). exists (v :: cs). split; [by rewrite <- app_assoc|].
      constructor; [|done]. unfold at_ in Hc. destruct (r_clusters (n_rel n) !! z) as [c''|]; [|done]. injection Hc as ->.
      by exists c, p, r0, s1, s2.
  Qed.
  Lemma candidates_inv Wb bi (base : any_rel V) all ns r cands r1 :
    candidates o Wb bi base ns all r = Ok (cands, r1) ->
    exists props, props ≡ₚ emission_blocks ns /\
      Forall2 (fun nz v => exists c p s s1 s2, r_clusters (n_rel nz.1) !! nz.2 = Some c /\
        em_propose (n_em nz.1) c all s = Ok (p, s1) /\ any_nearest Wb base p bi s1 = Ok (v, s2)) props cands.
  Proof.
    unfold candidates. assert (forall c0 r0 c1 r1,
      foldM (fun st n => foldM (propose_one Wb bi base all n) st (o_vecs o (dom (r_clusters (n_rel n))))) (c0, r0) ns = Ok (c1, r1) ->
      exists cs, c1 = c0 ++ cs /\ exists props, props ≡ₚ emission_blocks ns /\
      Forall2 (fun nz v => exists c p s s1 s2, r_clusters (n_rel nz.1) !! nz.2 = Some c /\
        em_propose (n_em nz.1) c all s = Ok (p, s1) /\ any_nearest Wb base p bi s1 = Ok (v, s2)) props cs) as Hgen.
    { induction ns as [|n ns IH]; intros c0 r0 c1 r1' H; cbn [foldM] in H.
      - injection H as <- <-. exists []. split; [by rewrite app_nil_r|]. exists []. split; [done|constructor].
      - apply obind_Ok in H as ([c' r'] & H1 & H). apply propose_loop in H1 as (cs1 & -> & Hcs1).
        destruct (IH _ _ _ _ H) as (cs2 & -> & props & Hp & Hcs2). exists (cs1 ++ cs2). split; [by rewrite app_assoc|].
        exists (((fun z => (n, z)) <$> o_vecs o (dom (r_clusters (n_rel n)))) ++ props). split.
        + unfold emission_blocks in *. csimpl. apply Permutation_app; [|done]. apply fmap_Permutation. apply Ho.
        + apply Forall2_app; [|done]. by apply Forall2_fmap_l. }
    intros H. apply Hgen in H as (cs & -> & ?). done.
  Qed.
End Proposals.

(** Every run of the transition that returns chose among the following candidates: one for
    every block of every noisy relation, proposed by the emission of that block (in the
    state it has without the observations over [bi]) from all the noisy values over [bi]
    of all the noisy relations, each with its repetitions, and moved to the nearest value
    the base can take. *)
Theorem C18_proposals {V} : forall lk o Wb Ws bi (base : any_rel V) ns u r base' ns' r',
  orders_ok o -> any_data base !! bi = Some u -> Forall2 (noisy_over base) Ws ns ->
  transition_latent_value lk o Wb Ws bi (base, ns) r = Ok (base', ns', r') ->
  exists v base1 ns1 all cands props,
    any_data base' !! bi = Some v /\ v ∈ cands /\
    Forall2 (fun n n1 => n_data n1 = n_data n /\ dom (r_clusters (n_rel n1)) = dom (r_clusters (n_rel n))) ns ns1 /\
    all ≡ₚ ns ≫= values_over (length (any_doms base)) bi /\
    props ≡ₚ emission_blocks ns1 /\
    Forall2 (fun nz c => exists st p s s1 s2, r_clusters (n_rel nz.1) !! nz.2 = Some st /\
      em_propose (n_em nz.1) st all s = Ok (p, s1) /\ any_nearest Wb base1 p bi s1 = Ok (c, s2)) props cands.
Proof.
  intros lk o Wb Ws bi base ns u r base' ns' r' Ho Hu Hns H.
  pose proof (overs_ready base Ws ns bi u Hu Hns) as Hready.
  destruct (transition_latent_spec lk o Ho Wb Ws bi base ns u r base' ns' r' Hu Hready H)
    as (base1 & ns1 & obss & cands & r1 & base2 & base3 & v & i & Hs & _ & Hc & _ & _ & _ & Hv & _ & _ & _ & Hd & _).
  destruct (candidates_inv o Ho _ _ _ _ _ _ _ _ Hc) as (props & Hp & Hcs).
  exists v, base1, ns1, (all_observations o obss), cands, props.
  unfold unincorporate_and_store in Hs. apply obind_Ok in Hs as (b1 & _ & Hs).
  destruct (store_all_spec o Ho bi (length (any_doms base)) u Ws ns Hready) as (ns1' & obss' & Es & Hst).
  rewrite Es in Hs. cbn [obind] in Hs. injection Hs as -> -> ->.
  assert (Forall2 (fun n n1 => n_data n1 = n_data n /\ dom (r_clusters (n_rel n1)) = dom (r_clusters (n_rel n))) ns ns1 /\
    obss = (fun n => filter (fun kv => take (length (any_doms base)) kv.1 = bi) (n_data n)) <$> ns) as [H1 ->].
  { clear -Hst Ho. induction Hst as [|W n n' obs Ws ns ns' obss [Hr Hs] _ [IH1 IH2]]; [done|].
    destruct (store_noisy_obs o Ho bi _ u W n n' obs Hr Hs) as (? & ? & ->). split; [by constructor|]. csimpl. by rewrite IH2. }
  split_and!; [by rewrite Hd, lookup_insert|by eapply elem_of_list_lookup_2|done| |done|done].
  rewrite (all_observations_perm o Ho). clear. induction ns as [|n ns IH]; csimpl; [done|]. by rewrite IH.
Qed.
Print Assumptions C18_proposals.
