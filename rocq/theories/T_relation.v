(** Property theorems C08-C11: relations.  [D] is any distribution class with the
    laws of S_relation; they are proved for the classes of the code in
    P_beta_bernoulli, P_dirichlet, P_normal, P_bigram. *)
From stdpp Require Import gmap strings list.
From Coq Require Import ZArith Reals Lra Lia.
From Verif Require Import M_base M_math M_crp M_domain M_dist M_distributions M_relation S_math S_crp S_crp_state S_relation S_dist
  P_base P_sum P_domain P_relation P_relation_score P_relation_gibbs P_relation_history P_dist
  P_lgamma P_beta_bernoulli P_dirichlet P_normal P_bigram P_tally P_relation_refuted.

(** * C08 *)
Theorem C08_blocks_hold_data {V} (D : Dist V) (L : lawful D) : forall W A ds spec rel0 os W' rel',
  world_holds W A -> (forall d, d ∈ ds -> d ∈ dom A) -> rel_new D ds spec = Ok rel0 ->
  Forall rel_call_ok os -> foldM rel_do (W, rel0) os = Ok (W', rel') ->
  exists A', world_holds W' A' /\ rel_holds L A' rel' /\ r_doms rel' = ds /\
    r_data rel' = foldl rel_data_after ∅ os.
Proof.
  intros W A ds spec rel0 os W' rel' HW Hds Hnew Hok H.
  assert (ds <> []) as Hne by (intros ->; done).
  destruct (rel_new_holds L A ds spec Hne Hds) as (rel & Hn & Hrel & Hdata & Hd).
  rewrite Hnew in Hn. injection Hn as ->. rewrite <- Hd, <- Hdata. clear Hnew Hds Hne Hdata Hd.
  revert W A rel HW Hrel H. induction os as [|o os IH]; intros W A rel HW Hrel H; cbn [foldM] in H.
  { injection H as <- <-. eauto. }
  apply Forall_cons in Hok as [Ho Hok]. apply obind_Ok in H as ([W1 rel1] & H1 & H).
  destruct (rel_do_effect L W A rel o W1 rel1 HW Hrel Ho H1) as (A1 & HW1 & Hrel1 & Hd & Heff).
  destruct (IH Hok W1 A1 rel1 HW1 Hrel1 H) as (A2 & HW2 & Hrel2 & Hd2 & Hdata2).
  exists A2. split_and!; [done|done|by rewrite Hd2|]. rewrite Hdata2. simpl. f_equal.
  destruct o; simpl in *; naive_solver.
Qed.
(** Each call does to the stored observations and the clustering what it should,
    and nothing else. *)
Theorem C08_call_effect {V} (D : Dist V) (L : lawful D) : forall W A rel o W' rel',
  world_holds W A -> rel_holds L A rel -> rel_call_ok o -> rel_do (W, rel) o = Ok (W', rel') ->
  exists A', world_holds W' A' /\ rel_holds L A' rel' /\ r_doms rel' = r_doms rel /\
    rel_call_effect (r_doms rel) A A' (r_data rel) (r_data rel') o.
Proof. exact (rel_do_effect L). Qed.
(** ... and goes through exactly when it is legal. *)
Theorem C08_legal_calls_succeed {V} (D : Dist V) (L : lawful D) : forall W A rel o,
  world_holds W A -> rel_holds L A rel -> rel_call_ok o ->
  match o with RResample _ _ => True | _ =>
    (exists st, rel_do (W, rel) o = Ok st) <-> rel_call_legal L (r_doms rel) A (r_data rel) o end.
Proof.
  intros W A rel o HW Hrel Hok.
  assert (forall d e, (exists m s, r_data_r rel !! d = Some m /\ m !! e = Some s) <->
                      d ∈ r_doms rel /\ observations_of (r_doms rel) (r_data rel) d e <> ∅) as Hidx.
  { intros d e. pose proof (rh_index _ _ _ Hrel d) as Hi. split.
    - intros (m & s & Hm & Hs). rewrite Hm in Hi. destruct Hi as [Hin He]. rewrite He in Hs.
      destruct (decide _); naive_solver.
    - intros [Hin Hne]. destruct (r_data_r rel !! d) as [m|]; [|done]. destruct Hi as [_ He].
      eexists m, _. split; [done|]. rewrite He, decide_False by done. done. }
  assert (forall d e, observations_of (r_doms rel) (r_data rel) d e <> ∅ -> is_Some (seat A d e)) as Hseat.
  { intros d e Hne. apply set_choose_L in Hne as [k Hk]. apply elem_of_observations in Hk as [[v Hv] Hm].
    destruct (rh_known _ _ _ Hrel k v Hv) as [Hb _]. apply block_of_is_Some in Hb as [_ Hb]. by apply Hb. }
  destruct o as [items v r|items|items v|ord d e t r|ord mord d e ts r|ord r]; simpl; [| | | | |done].
  - split.
    + intros [st H]. apply obind_Ok in H as ([[W1 rel1] r1] & H & _).
      by apply (rel_incorporate_inv L W A rel items v r _ HW Hrel H).
    + intros (Hl & Hn & Hv). destruct (rel_incorporate_spec L W A rel items v r HW Hrel Hl Hn Hv)
        as (W2 & A2 & rel2 & r2 & -> & _). simpl. eauto.
  - split.
    + intros [st H]. apply obind_Ok in H as (rel1 & H & _). by eapply rel_unincorporate_inv.
    + intros [v Hv]. destruct (rel_unincorporate_spec L W A rel items v HW Hrel Hv) as (rel2 & -> & _). simpl. eauto.
  - split.
    + intros [st H]. apply obind_Ok in H as (rel1 & H & _). by eapply rel_update_value_inv.
    + intros [[v0 Hv0] Hv]. destruct (rel_update_value_spec L W A rel items v v0 HW Hrel Hv0 Hv) as (rel2 & -> & _).
      simpl. eauto.
  - split.
    + intros [st H]. apply obind_Ok in H as ([rel1 r1] & H & _).
      destruct (rel_set_cluster_inv W A rel ord d e t r _ HW H) as (cur & m & s & Hc & Hne & Hm & Hs).
      assert (d ∈ r_doms rel /\ observations_of (r_doms rel) (r_data rel) d e <> ∅) as [? ?] by (apply Hidx; eauto).
      split_and!; [done|done|]. congruence.
    + intros (Hd & Hobs & Hne). destruct (Hseat d e Hobs) as [cur Hcur].
      destruct (proj2 (Hidx d e) (conj Hd Hobs)) as (m & s & Hm & Hs).
      destruct (rel_set_cluster_spec L W A rel ord d e t cur r m s HW Hrel Hok Hcur) as (rel2 & r2 & -> & _); [congruence|done|done|].
      simpl. destruct (world_set_cluster_Ok W A d e t cur HW Hcur) as (dm & dm' & -> & Hdm); [congruence|].
      simpl. rewrite Hdm. simpl. eauto.
  - split.
    + intros [st H]. apply obind_Ok in H as ([[lps rel1] r1] & H & _).
      unfold logp_gibbs_exact, get_cluster_to_items_list in H.
      apply obind_Ok in H as (gm & Hgm & H). apply obind_Ok in Hgm as (m & Hm1%at_Ok & Hgm).
      apply obind_Ok in Hgm as (s & Hs%at_Ok & _). apply Hidx. eauto.
    + intros [Hd Hobs]. destruct (Hseat d e Hobs) as [cur Hcur].
      destruct (proj2 (Hidx d e) (conj Hd Hobs)) as (m & s & Hm & Hs). destruct Hok as [Ho Hmo].
      destruct (rh_blocks _ _ _ Hrel) as [hh Hb].
      destruct (logp_gibbs_exact_spec L W A rel hh ord mord d e ts r m s cur HW Hrel Ho Hmo Hb Hm Hs Hcur)
        as (lps & r' & gs & -> & _). simpl. eauto.
Qed.

(** A concrete history over two domains, with a repeated domain, a move and a removal. *)
Definition C08_world : world := {[ "d"%string := dom_new; "c"%string := dom_new ]}.
Definition C08_calls : list (rel_call tally_dist) :=
  [RIncorporate [1; 2; 7]%Z true [5]; RIncorporate [2; 1; 7]%Z false []; RIncorporate [2; 2; 8]%Z true [1];
   RMove elements "d"%string 1 4 []; RUnincorporate [2; 2; 8]%Z; RUpdate [1; 2; 7]%Z false].
Example C08_example :
  exists W rel0 rel, rel_new tally_dist ["d"; "d"; "c"]%string tt = Ok rel0 /\
    foldM rel_do (C08_world, rel0) C08_calls = Ok (W, rel) /\ Forall rel_call_ok C08_calls /\
    world_holds C08_world {[ "d"%string := ∅; "c"%string := ∅ ]} /\
    r_data rel = {[ [1; 2; 7]%Z := false; [2; 1; 7]%Z := false ]} /\
    map_to_list (r_clusters rel) = [([0; 4; 0]%Z, (0, 1)); ([4; 0; 0]%Z, (0, 1))].
Proof.
  assert ((let* rel0 := rel_new tally_dist ["d"; "d"; "c"]%string tt in
           let* (W, rel) := foldM rel_do (C08_world, rel0) C08_calls in
           Ok (r_data rel, map_to_list (r_clusters rel))) =
          Ok ({[ [1; 2; 7]%Z := false; [2; 1; 7]%Z := false ]}, [([0; 4; 0]%Z, (0, 1)); ([4; 0; 0]%Z, (0, 1))])) as H
    by by_compute.
  apply obind_Ok in H as (rel0 & Hn & H). apply obind_Ok in H as ([W rel] & Hf & [= Hd Hc]).
  exists W, rel0, rel. split_and!; try done.
  { unfold C08_calls. repeat (apply Forall_cons; split; [try exact I; by intros ?|]). constructor. }
  intros d. unfold C08_world. destruct (decide (d = "d"%string)) as [->|].
  { rewrite !lookup_insert. apply domain_holds_new. }
  destruct (decide (d = "c"%string)) as [->|].
  { rewrite !(lookup_insert_ne _ "d"%string), !lookup_singleton by done. apply domain_holds_new. }
  rewrite !lookup_insert_ne, !lookup_singleton_ne by done. done.
Qed.

(** * C09 *)
(** Unincorporating what was just incorporated restores the complete relation
    object, whether or not the entities were known before. *)
Theorem C09_unincorporate_incorporate {V} (D : Dist V) (L : lawful D) : forall W A rel items v r W' rel' r',
  world_holds W A -> rel_holds L A rel -> rel_incorporate D W rel items v r = Ok (W', rel', r') ->
  rel_unincorporate D W' rel' items = Ok rel.
Proof. exact (rel_incorporate_unincorporate L). Qed.
(** The domains keep the clusters they had; with all entities known they do not change at all. *)
Theorem C09_entities_keep_clusters {V} (D : Dist V) (L : lawful D) : forall W A rel items v r W' rel' r',
  world_holds W A -> rel_holds L A rel -> rel_incorporate D W rel items v r = Ok (W', rel', r') ->
  exists A', world_holds W' A' /\
    (forall d e t, seat A d e = Some t -> seat A' d e = Some t) /\
    (forall d e, is_Some (seat A' d e) <-> is_Some (seat A d e) \/ mentions (r_doms rel) items d e).
Proof.
  intros W A rel items v r W' rel' r' HW Hrel H.
  destruct (rel_incorporate_inv L W A rel items v r _ HW Hrel H) as (Hl & Hn & Hv).
  destruct (rel_incorporate_spec L W A rel items v r HW Hrel Hl Hn Hv)
    as (W2 & A2 & rel2 & r2 & H2 & HW2 & Hrel2 & Hd & Hspec & Hdata & Hext2).
  rewrite H in H2. injection H2 as <- <- <-. exists A2. destruct Hext2 as (_ & Hk & Hnew).
  split_and!; [done|done|]. intros d e. split.
  - apply Hnew.
  - intros [[t Ht]|Hm]; [eauto|].
    destruct (rh_known _ _ _ Hrel2 items v) as [Hb _]; [rewrite Hdata; apply lookup_insert|].
    rewrite Hd in Hb. apply block_of_is_Some in Hb as [_ Hb]. by apply Hb.
Qed.
Theorem C09_read_back {V} (D : Dist V) (L : lawful D) : forall W A rel items v r W' rel' r',
  world_holds W A -> rel_holds L A rel -> rel_incorporate D W rel items v r = Ok (W', rel', r') ->
  get_value D rel' items = Ok v /\
  forall items', items' <> items -> get_value D rel' items' = get_value D rel items'.
Proof.
  intros W A rel items v r W' rel' r' HW Hrel H.
  destruct (rel_incorporate_inv L W A rel items v r _ HW Hrel H) as (Hl & Hn & Hv).
  destruct (rel_incorporate_spec L W A rel items v r HW Hrel Hl Hn Hv)
    as (W2 & A2 & rel2 & r2 & H2 & HW2 & Hrel2 & Hd & Hspec & Hdata & Hext2).
  rewrite H in H2. injection H2 as <- <- <-. unfold get_value. rewrite Hdata. split.
  - rewrite bool_decide_eq_true_2 by (apply elem_of_dom; rewrite lookup_insert; eauto). simpl. by rewrite lookup_insert.
  - intros k Hk. rewrite lookup_insert_ne by done. f_equal. f_equal. apply bool_decide_ext.
    rewrite dom_insert, elem_of_union, elem_of_singleton. naive_solver.
Qed.
Example C09_example : exists W A (rel : relation tally_dist) st, world_holds W A /\ rel_holds tally_lawful A rel /\
  r_data rel <> ∅ /\ rel_incorporate tally_dist W rel [1; 1; 9]%Z true [] = Ok st.
Proof.
  destruct C08_example as (W & rel0 & rel & Hn & Hf & Hok & HW & Hd & _).
  assert (forall d, d ∈ ["d"; "d"; "c"]%string -> d ∈ dom ({[ "d"%string := ∅; "c"%string := ∅ ]} : clustering)) as Hin.
  { intros d Hi. repeat (apply elem_of_cons in Hi as [->|Hi]; [apply elem_of_dom; by eexists|]). by apply elem_of_nil in Hi. }
  destruct (C08_blocks_hold_data tally_dist tally_lawful _ _ _ _ _ _ _ _ HW Hin Hn Hok Hf)
    as (A & HW' & Hrel & Hds & _).
  exists W, A, rel. 
  destruct (rel_incorporate_spec tally_lawful W A rel [1; 1; 9]%Z true [] HW' Hrel) as (W2 & A2 & rel2 & r2 & H2 & _).
  { by rewrite Hds. } { by rewrite Hd. } { done. }
  eexists. split_and!; [done|done| |exact H2]. rewrite Hd. apply insert_non_empty.
Qed.

(** * C10 *)
Theorem C10_move_entity {V} (D : Dist V) (L : lawful D) : forall W A rel ord d e t r rel' r',
  world_holds W A -> rel_holds L A rel -> order_ok ord ->
  rel_set_cluster D W rel ord d e t r = Ok (rel', r') ->
  r_data rel' = r_data rel /\ r_data_r rel' = r_data_r rel /\ r_doms rel' = r_doms rel /\
  rel_holds L (clustering_move A d e t) rel' /\
  (forall z, (forall k, is_Some (r_data rel !! k) -> mentions (r_doms rel) k d e ->
       block_of A (r_doms rel) k <> Some z /\ block_of (clustering_move A d e t) (r_doms rel) k <> Some z) ->
     r_clusters rel' !! z = r_clusters rel !! z).
Proof.
  intros W A rel ord d e t r rel' r' HW Hrel Hord H.
  destruct (rel_set_cluster_inv W A rel ord d e t r _ HW H) as (cur & m & s & Hc & Hne & Hm & Hs).
  destruct (rel_set_cluster_spec L W A rel ord d e t cur r m s HW Hrel Hord Hc Hne Hm Hs)
    as (rel2 & r2 & H2 & Hrel2 & Hd & _ & Hdata & Hidx).
  rewrite H in H2. injection H2 as <- <-. split_and!; try done.
  intros z Hz. by eapply rel_set_cluster_frame.
Qed.
(** Only the moved entity's cluster changes. *)
Theorem C10_other_entities_stay : forall A d e t d' e', (d', e') <> (d, e) ->
  seat (clustering_move A d e t) d' e' = seat A d' e'.
Proof. intros A d e t d' e' Hne. rewrite seat_move, decide_False; [done|]. naive_solver. Qed.
(** The visiting order of the hash set is immaterial for everything but which
    draws the hyperparameters of freshly created blocks come from. *)
Theorem C10_order_irrelevant {V} (D : Dist V) (L : lawful D) : forall W A rel ord ord' d e t r r0 rel1 r1 rel2 r2 h0,
  world_holds W A -> rel_holds L A rel -> order_ok ord -> order_ok ord' ->
  (forall sp r, (d_new D sp r).1 = law_of L h0 []) ->
  blocks_hold L (fun _ => h0) (block_of A (r_doms rel)) (r_data rel) (r_clusters rel) ->
  rel_set_cluster D W rel ord d e t r = Ok (rel1, r1) ->
  rel_set_cluster D W rel ord' d e t r0 = Ok (rel2, r2) -> rel1 = rel2.
Proof.
  intros W A rel ord ord' d e t r r0 rel1 r1 rel2 r2 h0 HW Hrel Ho Ho' Hf Hb H1 H2.
  pose proof (rel_set_cluster_const L h0 Hf W A rel ord d e t r rel1 r1 HW Hrel Ho Hb H1) as Hb1.
  pose proof (rel_set_cluster_const L h0 Hf W A rel ord' d e t r0 rel2 r2 HW Hrel Ho' Hb H2) as Hb2.
  assert (r_clusters rel1 = r_clusters rel2) as Hc.
  { apply map_eq. intros z. by rewrite (Hb1 z), (Hb2 z). }
  destruct (rel_set_cluster_inv W A rel ord d e t r _ HW H1) as (cur & m & s & Hcu & Hne & Hm & Hs).
  destruct (rel_set_cluster_spec L W A rel ord d e t cur r m s HW Hrel Ho Hcu Hne Hm Hs)
    as (rel1' & r1' & H1' & _ & E1 & E2 & E3 & E4). rewrite H1 in H1'. injection H1' as <- <-.
  destruct (rel_set_cluster_spec L W A rel ord' d e t cur r0 m s HW Hrel Ho' Hcu Hne Hm Hs)
    as (rel2' & r2' & H2' & _ & F1 & F2 & F3 & F4). rewrite H2 in H2'. injection H2' as <- <-.
  destruct rel1, rel2. simpl in *. congruence.
Qed.

(** * C11 *)
Theorem C11_gibbs_exact_is_score_change {V} (D : Dist V) (L : lawful D) :
  forall W A rel ord mord ord' d0 e0 t0 cur ts lps rel1 r r1 r2 i j x y rel' r',
  world_holds W A -> rel_holds L A rel -> order_ok ord -> map_order_ok mord -> order_ok ord' ->
  NoDup (r_doms rel) ->
  (exists h0, forall r, (d_new D (r_spec rel) r).1 = law_of L h0 []) ->
  logp_gibbs_exact D W rel ord mord d0 e0 ts r = Ok (lps, rel1, r1) ->
  seat A d0 e0 = Some cur ->
  ts !! i = Some t0 -> ts !! j = Some cur -> lps !! i = Some x -> lps !! j = Some y ->
  rel_set_cluster D W rel ord' d0 e0 t0 r2 = Ok (rel', r') ->
  (x - y = rel_logp_score D rel' - rel_logp_score D rel)%R.
Proof. exact (gibbs_exact_difference L). Qed.
(** Scoring does not change the relation. *)
Theorem C11_scoring_is_pure {V} (D : Dist V) (L : lawful D) :
  forall W A rel ord mord d0 e0 ts r lps rel1 r1,
  world_holds W A -> rel_holds L A rel -> order_ok ord -> map_order_ok mord ->
  logp_gibbs_exact D W rel ord mord d0 e0 ts r = Ok (lps, rel1, r1) -> rel1 = rel /\ length lps = length ts.
Proof.
  intros W A rel ord mord d e ts r lps rel1 r1 HW Hrel Ho Hm H. pose proof H as H0.
  unfold logp_gibbs_exact, get_cluster_to_items_list in H0.
  apply obind_Ok in H0 as (gm & Hgm & H0). apply obind_Ok in Hgm as (m & Hm1%at_Ok & Hgm).
  apply obind_Ok in Hgm as (s & Hs%at_Ok & _).
  apply obind_Ok in H0 as (dm & Hdm & H0). apply obind_Ok in H0 as (cur & Hcur & _).
  pose proof (world_get_cluster_inv W A HW _ _ _ _ Hdm Hcur) as Hseat.
  destruct (rh_blocks _ _ _ Hrel) as [hh Hb].
  destruct (logp_gibbs_exact_spec L W A rel hh ord mord d e ts r m s cur HW Hrel Ho Hm Hb Hm1 Hs Hseat)
    as (lps2 & r2 & gs & H2 & _ & HF). rewrite H in H2. injection H2 as -> -> ->. split; [done|].
  by apply Forall2_length in HF.
Qed.
(** The classes of the code satisfy the two hypotheses on fresh objects. *)
Example C11_hypotheses_hold lg smp smp2 k nearest ml mn mx :
  ((exists h0, forall sp r, (d_new (bb_dist lg) sp r).1 = law_of (bb_lawful lg) h0 []) /\
   (forall h, d_score (bb_dist lg) (law_of (bb_lawful lg) h []) = 0%R)) /\
  ((exists h0, forall sp r, (d_new (dc_dist lg k) sp r).1 = law_of (dc_lawful lg k) h0 []) /\
   (forall h, d_score (dc_dist lg k) (law_of (dc_lawful lg k) h []) = 0%R)) /\
  ((exists h0, forall sp r, (d_new (nm_dist lg smp) sp r).1 = law_of (nm_lawful lg smp) h0 []) /\
   (forall h, d_score (nm_dist lg smp) (law_of (nm_lawful lg smp) h []) = 0%R)) /\
  ((exists h0, forall sp r, (d_new (zm_dist lg smp2) sp r).1 = law_of (zm_lawful lg smp2) h0 []) /\
   (forall h, d_score (zm_dist lg smp2) (law_of (zm_lawful lg smp2) h []) = 0%R)) /\
  ((exists h0, forall sp r, (d_new (bg_dist_with nearest lg ml mn mx) sp r).1 = law_of (bg_lawful nearest lg ml mn mx) h0 []) /\
   (forall h, d_score (bg_dist_with nearest lg ml mn mx) (law_of (bg_lawful nearest lg ml mn mx) h []) = 0%R)).
Proof.
  split_and!.
  - unshelve eexists (exist _ (1, 1)%R _); [simpl; lra|]. done.
  - intros h. apply bb_score_empty.
  - unshelve eexists (exist _ 1%R _); [simpl; lra|]. intros sp r. simpl. unfold dc_new, dc_of. f_equal.
    unfold count_list. clear sp. generalize 0 at 1 as n. induction k as [|k IH]; intros n; [done|]. simpl. by rewrite <- IH.
  - intros h. apply dc_score_empty.
  - unshelve eexists (exist _ (1, 1, 0, 1)%R _); [simpl; lra|]. done.
  - intros [h H]. destruct h as [[[r v] m] s0], H as (H1 & H2). by apply nm_score_empty.
  - unshelve eexists (exist _ (1, 1)%R _); [simpl; lra|]. done.
  - intros [h H]. destruct h as [a b]. apply zm_score_empty.
  - unshelve eexists (exist _ 1%R _); [simpl; lra|]. intros sp r. simpl. apply bg_new_of.
  - intros h. apply bg_score_empty.
Qed.

(** With a domain used twice the scores the sampler uses are wrong: two entities in
    one cluster, observations (1,2) and (2,1) true, Beta(1,1).  Moving entity 1 to
    a new cluster splits the block in two and changes the score by ln (3/4); the
    Gibbs scores say the move makes no difference. *)
Theorem C11_repeated_domain_refuted : forall lg, is_lgamma lg ->
  exists dm rel0 W rel lps rel1 r1 rel' r' x y,
    foldM dom_do dom_new [DIncorporate 1 0 []; DIncorporate 2 0 []] = Ok dm /\
    rel_new (bb_dist lg) ["d"; "d"]%string tt = Ok rel0 /\
    foldM rel_do ({[ "d"%string := dm ]}, rel0)
      [RIncorporate [1; 2]%Z true []; RIncorporate [2; 1]%Z true []] = Ok (W, rel) /\
    logp_gibbs_exact (bb_dist lg) W rel elements map_to_list "d" 1 [1; 0]%Z [] = Ok (lps, rel1, r1) /\
    rel_set_cluster (bb_dist lg) W rel elements "d" 1 1 [] = Ok (rel', r') /\
    lps = [x; y] /\ (x - y = 0)%R /\
    (rel_logp_score (bb_dist lg) rel' - rel_logp_score (bb_dist lg) rel = ln (3 / 4))%R /\ (ln (3 / 4) < 0)%R.
Proof.
  intros lg Hlg. destruct C11_domain as (dm & Hdm & HW).
  destruct (C11_run_spec lg _ HW) as (rel0 & W1 & rel1 & W2 & rel & Hn & H1 & H2 & HW2 & Hrel & Hds & Hdata & Hb).
  assert (order_ok elements) as Ho by (by intros ?). assert (map_order_ok map_to_list) as Hmo by (by intros ?).
  assert (observations_of (r_doms rel) (r_data rel) "d" 1 <> ∅) as Hobs.
  { rewrite Hds, Hdata. intros E. assert ([1; 2]%Z ∈ (∅ : gset items_t)) as []%elem_of_empty. rewrite <- E.
    apply elem_of_observations. split; [by eexists|]. left. }
  assert ("d"%string ∈ r_doms rel) as Hin by (rewrite Hds; left).
  destruct (proj2 (C08_legal_calls_succeed _ (bb_lawful lg) W2 C11_A rel (RScore elements map_to_list "d" 1 [1; 0]%Z [])
    HW2 Hrel (conj Ho Hmo)) (conj Hin Hobs)) as [st Hst].
  apply obind_Ok in Hst as ([[lps rel2] r2] & Hex & _).
  destruct (proj2 (C08_legal_calls_succeed _ (bb_lawful lg) W2 C11_A rel (RMove elements "d" 1 1 [])
    HW2 Hrel Ho)) as [st' Hst'].
  { split_and!; [done|done|by intros [=]]. }
  apply obind_Ok in Hst' as ([rel' r'] & Hset & _).
  destruct (C11_refutation lg Hlg W2 rel elements map_to_list elements lps rel2 [] r2 [] rel' r'
    HW2 Hrel Hds Hdata Hb Ho Hmo Ho Hex Hset) as (x & y & Hl & Hxy & Hs).
  exists dm, rel0, W2, rel, lps, rel2, r2, rel', r', x, y. split_and!; try done.
  - cbn [foldM]. rewrite H1. cbn [obind]. by rewrite H2.
  - rewrite <- ln_1. apply ln_increasing; lra.
Qed.
