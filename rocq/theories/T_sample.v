(** Sampling from a HIRM: C61. *)
From Coq Require Import String Ascii.
From stdpp Require Import gmap strings list relations sorting.
From Coq Require Import ZArith Reals Lia.
From Verif Require Import M_base M_math M_crp M_domain M_dist M_relation M_noisy M_irm M_hirm S_crp S_crp_state S_relation S_irm S_hirm
  P_base P_crp P_domain P_relation P_tally P_any P_irm_history P_hirm P_hirm_move P_hirm_trans P_hirm_history P_hirm_ctor P_load_models T_irm T_hirm
  S_sample P_sample P_sample_crp P_sample_hirm.
Local Open Scope string_scope.
Local Open Scope list_scope.
Local Open Scope nat_scope.

Lemma reached_good {V} (schema : gmap string (t_rel V)) r0 h0 r1 cs h :
  schema_lawful schema -> hirm_new schema r0 = Ok (h0, r1) -> hirm_gentle_run h0 cs h ->
  (exists a, hirm_holds h a) /\ hirm_closed h /\ hirm_listed_exactly h /\ no_empty h.
Proof.
  intros HL H0 Hrun. destruct (proj1 (hirm_new_spec schema r0 HL) _ _ H0) as [Hb Hs]. pose proof (built_closed _ _ Hb) as Hc. destruct Hb as ([a0 Hh0] & _ & Hl & _).
  destruct (gentle_run_spec h0 cs h Hrun a0 Hh0 Hc Hl) as (Hc' & Hl' & Hr). destruct (hirm_run_spec h0 cs h Hr a0 Hh0) as ([a Hh] & _).
  split; [by exists a|]. split; [done|]. split; [done|]. exact (run_no_empty _ _ _ Hr _ Hh0 (new_no_empty _ _ _ _ H0)).
Qed.

Lemma sublist_nodup {A} (l k : list A) : l `sublist_of` k -> NoDup k -> NoDup l.
Proof.
  intros H. induction H as [|x l k H IH|x l k H IH]; intros Hn; [done| |]; apply NoDup_cons in Hn as [Hx Hn]; [|by apply IH].
  apply NoDup_cons_2; [|by apply IH]. intros Hin. apply Hx. eapply elem_of_submseteq; [done|by apply sublist_submseteq].
Qed.

(** ** One relation *)
(** Sampling a value of a relation for a tuple that has none: the value and, before it,
    values for the tuple of its base, of its base's base and so on, as far as they are
    missing, are incorporated as observations (so the model is what it would be had they
    been observed).  No other tuple changes. *)
Theorem C61_relation {V} (schema : gmap string (t_rel V)) r0 h0 r1 cs h fuel name items r v h' r' :
  schema_lawful schema -> hirm_new schema r0 = Ok (h0, r1) -> hirm_gentle_run h0 cs h -> schema_draws_keep (h_schema h) ->
  hirm_sample_relation fuel h name items r = Ok (v, h', r') ->
  exists xs, incorporates h xs h' /\ last xs = Some (name, items, v) /\ NoDup xs.*1 /\
    (forall n l, (n, l) ∈ xs.*1 <-> datum h n l = None /\ chain (h_schema h) (name, items) (n, l)) /\
    (forall n l w, (n, l, w) ∈ xs -> datum h' n l = Some w) /\
    (forall n l, (n, l) ∉ xs.*1 -> datum h' n l = datum h n l).
Proof.
  intros HL H0 Hrun HD H. destruct (reached_good schema r0 h0 r1 cs h HL H0 Hrun) as ((a & Hh) & Hc & Hl & _).
  destruct (sample_relation_incorporates fuel h a name items r v h' r' Hh HD H) as (anc & Hi & Hanc).
  destruct (incorporates_holds h a _ h' Hh Hi) as (Hh' & (Hs & _) & _). destruct (incorporates_gentle h _ h' Hi) as [cs' Hg].
  destruct (gentle_run_spec h cs' h' Hg a Hh Hc Hl) as (Hc' & _).
  destruct (incorporates_data h a _ h' Hh Hi) as (D1 & D2 & D3). exists (anc ++ [(name, items, v)]).
  split; [done|]. split; [apply last_snoc|]. split; [done|]. split; [|split; [|done]].
  - intros n l. split.
    + intros ([[n' l'] w] & E & Hin)%elem_of_list_fmap. cbn in E. injection E as -> ->. split; [by destruct (D2 _ _ _ Hin)|].
      apply elem_of_app in Hin as [Hin|Hin].
      * apply tc_rtc. exact (proj1 (Forall_forall _ _) Hanc _ Hin).
      * apply elem_of_list_singleton in Hin. injection Hin as -> -> _. apply rtc_refl.
    + intros [Hn Hch]. destruct (decide ((n, l) ∈ (anc ++ [(name, items, v)]).*1)) as [|Hno]; [done|]. exfalso.
      assert (is_Some (datum h' n l)) as [w Hw].
      { apply (closed_chain h' (name, items) (n, l) Hc'); [by rewrite Hs|]. cbn. exists v. apply (D2 name items v). apply elem_of_app. right. left. }
      rewrite (D3 _ _ Hno) in Hw. congruence.
  - intros n l w Hin. by destruct (D2 _ _ _ Hin) as (_ & ? & _).
Qed.
Print Assumptions C61_relation.

(** The recursion along the bases always ends: more than one unit of fuel per relation makes no difference. *)
Theorem C61_relation_fuel {V} (schema : gmap string (t_rel V)) r0 h0 r1 cs h fuel name items r :
  schema_lawful schema -> hirm_new schema r0 = Ok (h0, r1) -> hirm_gentle_run h0 cs h -> is_Some (h_schema h !! name) -> size (h_schema h) <= fuel ->
  hirm_sample_relation fuel h name items r = hirm_sample_relation (size (h_schema h)) h name items r.
Proof.
  intros HL H0 Hrun Hn Hf. destruct (reached_good schema r0 h0 r1 cs h HL H0 Hrun) as ((a & Hh) & _).
  destruct (grounded_bases _ _ (hh_grounded _ _ Hh name Hn)) as [l Hl]. pose proof (bases_short _ _ _ Hl) as Hs.
  apply (sample_relation_fuel h name l Hl); lia.
Qed.
Print Assumptions C61_relation_fuel.

(** ** The whole model *)
Lemma sample_good {V} (h : hirm V) a o fuel n r obs h' r' :
  hirm_holds h a -> hirm_closed h -> hirm_listed_exactly h -> no_empty h -> schema_draws_keep (h_schema h) -> orders_ok o ->
  hirm_sample o fuel h n r = Ok (obs, h', r') ->
  (forall name, is_Some (obs !! name) <-> leaf (h_schema h) name /\ n <> 0) /\
  (forall name l, obs !! name = Some l -> length l = n /\ NoDup l.*1 /\
     forall items v, (items, v) ∈ l -> datum h name items = None /\ datum h' name items = Some v /\
       exists t, h_schema h !! name = Some t /\ Forall2 (fun d e => known h d e \/ forall e', known h d e' -> (e' < e)%Z) (t_domains t) items) /\
  (forall name items v, datum h name items = Some v -> datum h' name items = Some v) /\
  (forall name items, datum h name items = None ->
     (is_Some (datum h' name items) <->
      exists leaf_name l items0 v, obs !! leaf_name = Some l /\ (items0, v) ∈ l /\ chain (h_schema h) (leaf_name, items0) (name, items))) /\
  exists xs, incorporates h xs h'.
Proof.
  intros Hh Hc Hl He HD Ho H.
  unfold hirm_sample in H. apply obind_Ok in H as (m & Hm & H). apply obind_Ok in H as ([[[obs1 h1] m1] r2] & Hf & H). injection H as <- <- <-.
  set (P := fun d e => known h d e \/ forall e', known h d e' -> (e' < e)%Z).
  assert (seats_all P m) as HP.
  { destruct (initialize_popular o h Ho) as (m0 & Hm0 & S & HS & Hcount). rewrite Hm in Hm0. injection Hm0 as <-.
    assert (forall d e, known h d e <-> exists j, S d !! j = Some e) as Hk.
    { intros d e. assert ((exists j, S d !! j = Some e) <-> 0 < clusters_with h d e) as ->.
      { rewrite <- Hcount. split.
        - intros [j Hj]. apply elem_of_customers_at in Hj. assert (size (customers_at (S d) e) <> 0); [|lia]. intros H. apply size_empty_inv in H. set_solver.
        - intros Hlt. apply (size_pos_elem_of (customers_at (S d) e)) in Hlt as [j Hj]. exists j. by apply elem_of_customers_at. }
      unfold clusters_with. split.
      - intros (t & ir & Hir & Hhas). apply elem_of_map_to_list in Hir. assert ((t, ir) ∈ filter (fun p : Z * irm V => irm_has p.2 d e) (map_to_list (h_irms h))) as Hin by by apply elem_of_list_filter.
        destruct (filter (fun p : Z * irm V => irm_has p.2 d e) (map_to_list (h_irms h))); [by apply elem_of_nil in Hin|cbn; lia].
      - intros Hlt. destruct (filter (fun p : Z * irm V => irm_has p.2 d e) (map_to_list (h_irms h))) as [|[t ir] l] eqn:E; [cbn in Hlt; lia|].
        assert ((t, ir) ∈ filter (fun p : Z * irm V => irm_has p.2 d e) (map_to_list (h_irms h))) as Hin by (rewrite E; left).
        apply elem_of_list_filter in Hin as [Hhas Hin]. apply elem_of_map_to_list in Hin. by exists t, ir. }
    exists S. split; [done|]. split.
    - intros d j e Hj. left. apply Hk. by exists j.
    - intros d e Hbig. right. intros e' He'. apply Hk in He' as [j Hj]. by apply (Hbig j). }
  assert (NoDup (sorted_names (h_schema h))) as Hnd.
  { unfold sorted_names. rewrite merge_sort_Permutation. apply NoDup_elements. }
  destruct (leaves_spec fuel P n (sorted_names (h_schema h)) Hnd ∅ h a m r obs1 h1 m1 r2 Hh HD HP Hf) as (_ & L2 & xs & L3 & L4 & L5).
  destruct (incorporates_holds h a _ h1 Hh L3) as (Hh' & (Hs & _) & _). destruct (incorporates_gentle h _ h1 L3) as [cs' Hg].
  destruct (gentle_run_spec h cs' h1 Hg a Hh Hc Hl) as (Hc' & _). destruct (incorporates_data h a _ h1 Hh L3) as (D1 & D2 & D3).
  assert (forall name, is_Some (obs1 !! name) <-> leaf (h_schema h) name /\ n <> 0) as Hobs.
  { intros name. rewrite (leaf_iff h name Hl He). split.
    - intros [l Hlk]. destruct (decide (name ∈ sorted_names (h_schema h) /\ name ∉ dom (h_b2n h) /\ n <> 0)) as [(H1 & H2 & H3)|Hno].
      + split; [|done]. split; [by apply sorted_names_elem|done].
      + exfalso. rewrite L2, lookup_empty in Hlk; [done|].
        destruct (decide (name ∈ sorted_names (h_schema h))); [right|by left]. destruct (decide (name ∈ dom (h_b2n h))); [by left|right].
        destruct (decide (n = 0)); [done|]. exfalso. by apply Hno.
    - intros [[H1 H2] H3]. destruct (L4 name) as (t & l & _ & Hlk & _); [by apply sorted_names_elem|done|done|]. by exists l. }
  assert (forall name l, obs1 !! name = Some l -> exists t, h_schema h !! name = Some t /\ length l = n /\ Forall (fun p => Forall2 P (t_domains t) p.1) l /\ (as_obs name <$> l) `sublist_of` xs) as Hsub.
  { intros name l Hlk. destruct (proj1 (Hobs name)) as [Hleaf Hn]; [by exists l|]. apply (leaf_iff h name Hl He) in Hleaf as [H1 H2].
    destruct (L4 name) as (t & l' & Ht & Hlk' & Hlen & HF & Hx); [by apply sorted_names_elem|done|done|]. rewrite Hlk in Hlk'. injection Hlk' as <-. by exists t. }
  assert (forall name l items v, obs1 !! name = Some l -> (items, v) ∈ l -> (name, items, v) ∈ xs) as Hin.
  { intros name l items v Hlk Hp. destruct (Hsub name l Hlk) as (_ & _ & _ & _ & Hx). eapply elem_of_submseteq; [|exact (sublist_submseteq _ _ Hx)].
    apply elem_of_list_fmap. exists (items, v). by split. }
  split; [done|]. split; [|split; [|split]].
  - intros name l Hlk. destruct (Hsub name l Hlk) as (t & Ht & Hlen & HF & Hx). split; [done|]. split.
    + pose proof (fmap_sublist fst _ _ Hx) as Hx1. assert (((as_obs name <$> l).*1) = (fun k => (name, k)) <$> l.*1) as E.
      { rewrite <- !list_fmap_compose. apply list_fmap_ext. intros i [k w] _. done. }
      rewrite E in Hx1. apply (NoDup_fmap_1 (fun k : items_t => (name, k))). exact (sublist_nodup _ _ Hx1 D1).
    + intros items v Hp. pose proof (Hin name l items v Hlk Hp) as Hxs. destruct (D2 _ _ _ Hxs) as (E1 & E2 & _). split; [done|]. split; [done|].
      exists t. split; [done|]. exact (proj1 (Forall_forall _ _) HF _ Hp).
  - intros name items v Hd. rewrite D3; [done|]. intros ([[n' l'] w] & E & Hx)%elem_of_list_fmap. cbn in E. injection E as -> ->. destruct (D2 _ _ _ Hx). congruence.
  - intros name items Hd. split.
    + intros [v Hv]. destruct (decide ((name, items) ∈ xs.*1)) as [Hx|Hno]; [|rewrite (D3 _ _ Hno) in Hv; congruence].
      apply elem_of_list_fmap in Hx as ([[n' l'] w] & E & Hx). cbn in E. injection E as -> ->.
      destruct (L5 _ Hx) as (name' & l & [items0 v0] & _ & _ & Hlk & Hp & Hch). exists name', l, items0, v0. done.
    + intros (name' & l & items0 & v0 & Hlk & Hp & Hch). apply (closed_chain h1 (name', items0) (name, items) Hc'); [by rewrite Hs|].
      cbn. exists v0. by destruct (D2 _ _ _ (Hin _ _ _ _ Hlk Hp)) as (_ & ? & _).
  - by exists xs.
Qed.
(** [hirm_sample o fuel h n r]: every relation that no other one is built on gets exactly [n]
    new observations, for different tuples that had no value, with one entity per domain;
    each entity is one that some cluster of relations knows or is larger than all of those.
    The other relations are not asked for samples; they get exactly the values the samples
    need.  All existing values stay. *)
Theorem C61_sample {V} (schema : gmap string (t_rel V)) r0 h0 r1 cs h o fuel n r obs h' r' :
  schema_lawful schema -> hirm_new schema r0 = Ok (h0, r1) -> hirm_gentle_run h0 cs h -> schema_draws_keep (h_schema h) -> orders_ok o ->
  hirm_sample o fuel h n r = Ok (obs, h', r') ->
  (forall name, is_Some (obs !! name) <-> leaf (h_schema h) name /\ n <> 0) /\
  (forall name l, obs !! name = Some l -> length l = n /\ NoDup l.*1 /\
     forall items v, (items, v) ∈ l -> datum h name items = None /\ datum h' name items = Some v /\
       exists t, h_schema h !! name = Some t /\ Forall2 (fun d e => known h d e \/ forall e', known h d e' -> (e' < e)%Z) (t_domains t) items) /\
  (forall name items v, datum h name items = Some v -> datum h' name items = Some v) /\
  (forall name items, datum h name items = None ->
     (is_Some (datum h' name items) <->
      exists leaf_name l items0 v, obs !! leaf_name = Some l /\ (items0, v) ∈ l /\ chain (h_schema h) (leaf_name, items0) (name, items))) /\
  exists xs, incorporates h xs h'.
Proof.
  intros HL H0 Hrun HD Ho H. destruct (reached_good schema r0 h0 r1 cs h HL H0 Hrun) as ((a & Hh) & Hc & Hl & He). by eapply sample_good.
Qed.
Print Assumptions C61_sample.

(** ** The value *)
Lemma contains_loop_Ok W ds : forall es z, assignment_loop W ds es = Ok z -> contains_loop W ds es = Ok (Some z).
Proof.
  induction ds as [|d ds IH]; intros es z H; cbn [assignment_loop contains_loop] in *; [by injection H as <-|].
  destruct es as [|e es]; [done|]. apply obind_Ok in H as (dm & Hdm & H). rewrite Hdm. cbn [obind]. apply obind_Ok in H as (t & Ht & H). apply obind_Ok in H as (ts & Hts & [= <-]).
  assert (e ∈ dom_items dm) as Hin. { unfold dom_get_cluster in Ht. apply obind_Ok in Ht as (? & Ha & _). by apply assert_Ok, bool_decide_eq_true in Ha. }
  rewrite bool_decide_eq_true_2 by done. rewrite Ht. cbn [obind]. by rewrite (IH _ _ Hts).
Qed.
Lemma contains_Ok {V} (D : Dist V) W A (rel : relation D) items z : world_holds W A -> block_of A (r_doms rel) items = Some z -> z ∈ dom (r_clusters rel) ->
  clusters_contains D W rel items = Ok true.
Proof.
  intros HW Hz Hin. apply (get_cluster_assignment_Ok W A HW rel) in Hz. unfold get_cluster_assignment in Hz. case_bool_decide as Hl; [|done].
  unfold clusters_contains. rewrite bool_decide_eq_true_2 by done. cbn [assert_ obind]. rewrite (contains_loop_Ok _ _ _ _ Hz). cbn [obind]. by rewrite bool_decide_eq_true_2.
Qed.
Lemma block_state {V} {D : Dist V} (L : lawful D) A (rel : relation D) z h0 : rel_holds L A rel ->
  exists h, default (law_of L h0 []) (r_clusters rel !! z) = law_of L h (values_in (block_of A (r_doms rel)) (r_data rel) z).
Proof.
  intros Hrel. destruct (rh_blocks _ _ _ Hrel) as [hh Hb]. specialize (Hb z). destruct (values_in _ _ z) as [|x l]; rewrite Hb; [by exists h0|by exists (hh z)].
Qed.
(** The value of a clean relation is drawn from the distribution of the cell the tuple falls
    in, given the values of the tuples that were in the cell before. *)
Theorem C61_value_clean {V} (D : Dist V) (L : lawful D) W A (rel : relation D) items r v W' rel' r' :
  world_holds W A -> rel_holds L A rel -> rel_sample_and_incorporate D W rel items r = Ok (v, W', rel', r') ->
  exists A' z, world_holds W' A' /\ clustering_extends A A' (zip (r_doms rel) items) /\ block_of A' (r_doms rel) items = Some z /\
    exists h r1 s r2, d_sample D (law_of L h (values_in (block_of A (r_doms rel)) (r_data rel) z)) r1 = Ok (v, s, r2).
Proof.
  intros HW Hrel H. assert (length items = length (r_doms rel) /\ r_data rel !! items = None) as [Hl Hn].
  { unfold rel_sample_and_incorporate in H. apply obind_Ok in H as (st & H & _). by eapply incorporate_items_inv. }
  unfold rel_sample_and_incorporate in H.
  destruct (incorporate_items_spec L W A rel items r HW Hrel Hl Hn) as (W1 & idx & r1 & A1 & z & h0 & Ei & HW1 & Hext & Hz & _ & _).
  rewrite Ei in H. cbn [obind] in H. apply obind_Ok in H as ([[v1 rel1] r2] & Hs & H). apply obind_Ok in H as (c & _ & H). apply obind_Ok in H as (c' & _ & H).
  injection H as <- <- _ _. exists A1, z. split; [done|]. split; [done|]. split; [done|]. unfold sample_at_items in Hs.
  match type of Hs with context [clusters_contains D W1 ?x items] => set (rel0 := x) in Hs; rewrite (contains_Ok D W1 A1 rel0 items z HW1 Hz) in Hs by (unfold rel0; cbn [r_clusters]; rewrite dom_insert; set_solver) end. cbn [obind] in Hs.
  rewrite (proj2 (get_cluster_assignment_Ok W1 A1 HW1 rel0 items z) Hz) in Hs. unfold rel0 in Hs. cbn [obind r_clusters] in Hs.
  rewrite lookup_insert in Hs. cbn [at_ obind] in Hs. apply obind_Ok in Hs as ([[v2 c2] r3] & Hd & Hs). injection Hs as <- _ _.
  destruct (block_state L A rel z h0 Hrel) as [h Hh]. rewrite Hh in Hd. eauto.
Qed.
Print Assumptions C61_value_clean.
(** The value of a noisy relation is the value its base has for the leading entities,
    corrupted by the emission of the cell, given the pairs that were in the cell before. *)
Theorem C61_value_noisy {V} W A (n : noisy V) (L : lawful (em_dist (n_em n))) b items r v W' n' r' :
  world_holds W A -> rel_holds L A (n_rel n) -> noisy_sample_and_incorporate W n b items r = Ok (v, W', n', r') ->
  exists A' z bv, world_holds W' A' /\ clustering_extends A A' (zip (r_doms (n_rel n)) items) /\ block_of A' (r_doms (n_rel n)) items = Some z /\
    bv_data b !! take (bv_arity b) items = Some bv /\
    exists h r1 r2, em_corrupt (n_em n) (law_of L h (values_in (block_of A (r_doms (n_rel n))) (r_data (n_rel n)) z)) bv r1 = Ok (v, r2).
Proof.
  intros HW Hrel H. assert (length items = length (r_doms (n_rel n)) /\ r_data (n_rel n) !! items = None) as [Hl Hn].
  { unfold noisy_sample_and_incorporate in H. apply obind_Ok in H as (st & H & _). revert H. unfold incorporate_items. intros H.
    apply obind_Ok in H as (? & Hn & H). apply assert_Ok, bool_decide_eq_true, not_elem_of_dom in Hn.
    apply obind_Ok in H as ([[W1 idx] r1] & _ & H). apply obind_Ok in H as (z & Hz & _). unfold get_cluster_assignment in Hz. case_bool_decide as Hl; done. }
  unfold noisy_sample_and_incorporate in H.
  destruct (incorporate_items_spec L W A (n_rel n) items r HW Hrel Hl Hn) as (W1 & idx & r1 & A1 & z & h0 & Ei & HW1 & Hext & Hz & _ & _).
  rewrite Ei in H. cbn [obind] in H. apply obind_Ok in H as (bv & Hbv & H). apply obind_Ok in H as (bi & Hbi & H). apply obind_Ok in H as ([v1 r2] & Hs & H).
  apply obind_Ok in H as (c & _ & H). apply obind_Ok in H as (c' & _ & H). injection H as <- <- _ _.
  exists A1, z, bv. split; [done|]. split; [done|]. split; [done|]. split.
  { unfold get_base_value in Hbv. apply obind_Ok in Hbv as (bi' & Hbi' & Hbv). unfold get_base_items in Hbi'. case_bool_decide; [|done]. injection Hbi' as <-.
    unfold base_get_value in Hbv. apply obind_Ok in Hbv as (? & _ & Hbv). by apply at_Ok in Hbv. }
  unfold noisy_sample_at_items in Hs. rewrite Hbv in Hs. cbn [obind n_set n_rel n_em] in Hs.
  match type of Hs with context [clusters_contains ?D W1 ?x items] => set (rel0 := x) in Hs; rewrite (contains_Ok D W1 A1 rel0 items z HW1 Hz) in Hs by (unfold rel0; cbn [r_clusters]; rewrite dom_insert; set_solver) end. cbn [obind] in Hs.
  rewrite (proj2 (get_cluster_assignment_Ok W1 A1 HW1 rel0 items z) Hz) in Hs. unfold rel0 in Hs. cbn [obind r_clusters] in Hs.
  rewrite lookup_insert in Hs. cbn [at_ obind] in Hs. destruct (block_state L A (n_rel n) z h0 Hrel) as [h Hh]. rewrite Hh in Hs. eauto.
Qed.
Print Assumptions C61_value_noisy.

(** Trying longer does not change what a call returns. *)
Theorem C61_sample_fuel {V} (h : hirm V) o fuel fuel' n r x : fuel <= fuel' -> hirm_sample o fuel h n r = Ok x -> hirm_sample o fuel' h n r = Ok x.
Proof.
  intros Hle H. unfold hirm_sample in *. apply obind_Ok in H as (m & -> & H). cbn [obind]. apply obind_Ok in H as (st & Hf & H).
  enough (foldM (sample_leaf fuel' n) (∅, h, m, r) (sorted_names (h_schema h)) = Ok st) as -> by done.
  revert Hf. generalize (∅ : gmap string (list (items_t * V)), h, m, r). clear H. induction (sorted_names (h_schema h)) as [|name names IH]; intros s Hf; cbn [foldM] in *; [done|].
  apply obind_Ok in Hf as (s1 & H1 & Hf). assert (sample_leaf fuel' n s name = Ok s1) as ->; [|cbn [obind]; by apply IH].
  destruct s as [[[ob h1] m1] r1]. unfold sample_leaf in *. case_bool_decide; [done|]. apply obind_Ok in H1 as (t & -> & H1). cbn [obind].
  apply obind_Ok in H1 as ([[[l h2] m2] r2] & Hr & H1). by rewrite (rounds_fuel fuel fuel' _ _ _ _ _ _ _ Hle Hr).
Qed.
Print Assumptions C61_sample_fuel.

(** ** Entities *)
Lemma seats_popular m f : seats m f <-> popular m f.
Proof.
  split.
  - intros (S & HS & Hf) d. exists (S d). destruct (HS d). split; [done|]. split; [done|]. apply Hf.
  - intros H. exists (fun d => crp_assignments (default crp_new (m !! d))). split.
    + intros d. destruct (H d) as (a & Ha & Hi & _). rewrite (hs_assign _ _ Ha). by split.
    + intros d e. destruct (H d) as (a & Ha & _ & Hf). by rewrite (hs_assign _ _ Ha).
Qed.
(** At the beginning the popularity of an entity is the number of clusters of relations that
    know it.  Drawing the entities of a tuple succeeds, counts each drawn entity once more,
    and a tuple that is put back is counted no more. *)
Theorem C61_popularity {V} (h : hirm V) o : orders_ok o ->
  (exists m, initialize_domain_crps o h = Ok m /\ popular m (clusters_with h)) /\
  forall m f ds r, popular m f -> exists es ps m' r' m'', draw_entities m ds r = Ok (es, ps, m', r') /\ length es = length ds /\
    popular m' (fun d e => f d e + times (d, e) (zip ds es)) /\ foldM undraw m' ps = Ok m'' /\ popular m'' f.
Proof.
  intros Ho. split.
  - destruct (initialize_popular o h Ho) as (m & Hm & Hp). exists m. split; [done|]. by apply seats_popular.
  - intros m f ds r Hp. apply seats_popular in Hp as (S & HS & Hf).
    destruct (draw_entities_spec ds m S r HS) as (es & ps & m' & r' & S' & Hd & Hlen & HS' & _ & _ & _ & _ & Hcnt & _).
    destruct (draw_undraw ds m S r es ps m' r' HS Hd) as (m2 & S2 & Hu & HS2 & He). exists es, ps, m', r', m2. split; [done|]. split; [done|]. split; [|split; [done|]].
    + apply seats_popular. exists S'. split; [done|]. intros d e. by rewrite Hcnt, Hf.
    + apply seats_popular. exists S2. split; [done|]. intros d e. by rewrite He, Hf.
Qed.
Print Assumptions C61_popularity.

(** ** Cases *)
(** Two samples of each leaf of the schema of C15 and of a relation [q] that is not built on:
    [r] is not sampled but gets the values [a] needs. *)
Definition C61_calls : list (hirm_call bool) :=
  [HAdd "q" (TClean ["d"] true tally_dist tt) [1]; HIncorporate "r" [1; 7]%Z true [0]; HIncorporate "a" [1; 7]%Z true []; HIncorporate "q" [5]%Z true [1]].
Lemma C61_calls_ok : calls_ok C15_schema C61_calls.
Proof. simpl. split_and!; try exact I; [by exists tally_lawful|done]. Qed.
Lemma gentle_of_run {V} (h : hirm V) cs h' : hirm_run h cs h' -> Forall (fun c => forall h, hirm_call_gentle h c) cs -> hirm_gentle_run h cs h'.
Proof. induction 1 as [h|h c h1 cs h' Hok Hdo _ IH]; intros HF; [constructor|]. inversion HF; subst. econstructor; eauto. Qed.
Lemma ok_pair {A B} (a a' : A) (b b' : B) : Ok (a, b) = Ok (a', b') -> a = a' /\ b = b'.
Proof. by intros [= -> ->]. Qed.
Definition C61_rng : rng := [1; 0; 1; 2; 3; 1; 2; 0; 1; 1; 2; 3].
Example C61_met : exists h0 r1 h h' r' obs, schema_lawful C15_schema /\ hirm_new C15_schema [0; 1] = Ok (h0, r1) /\ hirm_gentle_run h0 C61_calls h /\
  schema_draws_keep (h_schema h) /\ orders_ok some_orders /\ hirm_sample some_orders 9 h 2 C61_rng = Ok (obs, h', r') /\
  (length <$> obs) = {[ "a" := 2; "q" := 2 ]} /\ (size <$> hirm_data h') = {[ "a" := 3; "r" := 3; "q" := 3 ]}.
Proof.
  assert ((let* h := (let* (h0, _) := hirm_new C15_schema [0; 1] in foldM hirm_do h0 C61_calls) in
    let* (obs, h', _) := hirm_sample some_orders 9 h 2 C61_rng in Ok (length <$> obs, size <$> hirm_data h')) = Ok ({[ "a" := 2; "q" := 2 ]}, {[ "a" := 3; "r" := 3; "q" := 3 ]})) as H by by_compute.
  apply obind_Ok in H as (h & Hh & H). apply obind_Ok in H as ([[obs h'] r'] & Hs & H). apply ok_pair in H as [H1 H2].
  destruct (start_and_run C15_schema [0; 1] C61_calls h C15_schema_lawful C61_calls_ok Hh) as (h0 & r1 & H0 & _ & Hrun).
  destruct (proj1 (hirm_new_spec C15_schema [0; 1] C15_schema_lawful) _ _ H0) as [([a0 Hh0] & _) Hs0].
  destruct (hirm_run_spec h0 _ h Hrun a0 Hh0) as (_ & Hsch & _).
  exists h0, r1, h, h', r', obs. split; [apply C15_schema_lawful|]. split; [exact H0|]. split.
  { apply gentle_of_run; [exact Hrun|]. repeat (apply Forall_cons; split; [done|]). by apply Forall_nil. }
  split; [|split; [apply some_orders_ok|split; [exact Hs|split; [exact H1|exact H2]]]].
  rewrite Hsch, Hs0. intros name t. cbn [C61_calls foldl hirm_schema_after]. unfold C15_schema.
  intros [[_ <-]|[_ [[_ <-]|[_ [_ <-]%lookup_singleton_Some]]%lookup_insert_Some]]%lookup_insert_Some; [| |exact I]; intros s r2 v s' r3; cbn; by intros [= _ <- _].
Qed.

(** Once a noisy relation has been removed, its base is not sampled although no relation is
    built on it any more: the list of noisy relations is not updated (hirm.cc:274-289). *)
Theorem C61_leaf_refuted : exists h0 r1 h h' r' obs, schema_lawful C15_schema /\ hirm_new C15_schema [0; 1] = Ok (h0, r1) /\
  hirm_run h0 [HRemove some_orders "a"] h /\ hirm_sample some_orders 9 h 2 C61_rng = Ok (obs, h', r') /\
  leaf (h_schema h) "r" /\ obs !! "r" = None.
Proof.
  assert ((let* h := (let* (h0, _) := hirm_new C15_schema [0; 1] in foldM hirm_do h0 [HRemove some_orders "a"]) in
    let* (obs, h', _) := hirm_sample some_orders 9 h 2 C61_rng in Ok (obs !! "r")) = Ok None) as H by by_compute.
  apply obind_Ok in H as (h & Hh & H). apply obind_Ok in H as ([[obs h'] r'] & Hs & H). injection H as H1.
  destruct (start_and_run C15_schema [0; 1] [HRemove some_orders "a"] h C15_schema_lawful) as (h0 & r1 & H0 & _ & Hrun); [|exact Hh|].
  { simpl. split; [|exact I]. split; [apply some_orders_ok|].
    intros n t. unfold C15_schema. intros [[<- <-]|[_ [<- <-]%lookup_singleton_Some]]%lookup_insert_Some; done. }
  destruct (proj1 (hirm_new_spec C15_schema [0; 1] C15_schema_lawful) _ _ H0) as [([a0 Hh0] & _) Hs0].
  destruct (hirm_run_spec h0 _ h Hrun a0 Hh0) as (_ & Hsch & _).
  exists h0, r1, h, h', r', obs. split; [apply C15_schema_lawful|]. split; [exact H0|]. split; [exact Hrun|]. split; [exact Hs|]. split; [|exact H1].
  rewrite Hsch, Hs0. cbn [foldl hirm_schema_after]. unfold C15_schema. split.
  - rewrite lookup_delete_ne by done. rewrite lookup_insert. by eexists.
  - intros n t [Hne Ht]%lookup_delete_Some. revert Ht. intros [[<- <-]|[_ [<- <-]%lookup_singleton_Some]]%lookup_insert_Some; done.
Qed.
Print Assumptions C61_leaf_refuted.
