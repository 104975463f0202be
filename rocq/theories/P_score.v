(** What incorporating an observation does to the joint score. *)
From Coq Require Import String Ascii.
From stdpp Require Import gmap strings list.
From Coq Require Import ZArith Reals Lia Lra.
From Verif Require Import M_base M_math M_crp M_domain M_dist M_relation M_noisy M_irm M_logp M_hirm S_math S_crp S_crp_state S_dist S_relation S_logp S_irm S_hirm
  P_base P_math P_sum P_crp P_crp_score P_domain P_relation P_any P_irm P_irm_gibbs P_logp P_hirm P_hirm_move P_reached S_hirm_logp S_score.
Local Open Scope R_scope.

Definition world_score lg (W : world) : R := sum_map (fun _ dm => crp_logp_score lg (dom_crp dm)) W.
Lemma dom_incorporate_score lg dm a e r dm' r' : is_lgamma lg -> domain_holds dm a -> 0 < crp_alpha (dom_crp dm) -> a !! e = None ->
  dom_incorporate dm e (-1) r = Ok (dm', r') ->
  exists t, domain_holds dm' (<[e := t]> a) /\ crp_alpha (dom_crp dm') = crp_alpha (dom_crp dm) /\
    0 < seat_prob (crp_alpha (dom_crp dm)) a t /\
    crp_logp_score lg (dom_crp dm') = crp_logp_score lg (dom_crp dm) + ln (seat_prob (crp_alpha (dom_crp dm)) a t).
Proof.
  intros Hlg [Hd Hh] Hal He H. unfold dom_incorporate in H. rewrite bool_decide_eq_false_2 in H by (rewrite Hd; by apply not_elem_of_dom).
  rewrite bool_decide_eq_false_2 in H by lia. apply obind_Ok in H as ([t r1] & Ht & H). apply obind_Ok in H as (c & Hc & [= <- <-]).
  exists t. destruct (holds_incorporate _ a e t Hh He) as (c' & Hc' & Hh' & Ha'). rewrite Hc in Hc'. injection Hc' as <-. cbn [dom_crp dom_items].
  split; [split; [by rewrite dom_insert_L, Hd|done]|]. split; [done|].
  pose proof (score_incorporate lg _ a e t c Hlg Hh Hal Hc) as Hs. pose proof (pos_INR (size a)) as Hp. unfold seat_prob.
  assert (0 < (if decide (customers_at a t = ∅) then crp_alpha (dom_crp dm) else INR (size (customers_at a t)))) as Hn.
  { destruct (decide _); [done|by apply INR_size_pos]. }
  split; [apply Rdiv_lt_0_compat; [done|lra]|]. rewrite ln_div' by (done || lra). destruct (decide _); lra.
Qed.

Lemma loop_score lg ds : forall W A idx es items r W' idx' r', is_lgamma lg -> world_holds W A -> positive W -> (forall d, d ∈ ds -> d ∈ dom A) ->
  incorporate_loop W idx ds es items r = Ok (W', idx', r') ->
  exists A' p, world_holds W' A' /\ seats (alpha_of W) A (zip ds es) p A' /\ 0 < p /\ world_score lg W' = world_score lg W + ln p.
Proof.
  intros W A idx es items r W' idx' r' Hlg. revert W A idx es r W' idx' r'.
  induction ds as [|d ds IH]; intros W A idx es r W' idx' r' HW Hp HA H; cbn [incorporate_loop] in H.
  { injection H as <- <- <-. exists A, 1. split; [done|]. split; [constructor|]. split; [lra|]. rewrite ln_1. lra. }
  destruct es as [|e es]; [done|]. apply obind_Ok in H as (dm & Hdm%idx_Ok & H). apply obind_Ok in H as ([dm' r1] & Hi & H). apply obind_Ok in H as (m & Hm%at_Ok & H).
  destruct (world_holds_dom W A d HW) as (dm0 & a & HWd & HAd & Hh); [apply HA; left|]. rewrite HWd in Hdm. injection Hdm as ->.
  assert (forall B : clustering, dom B = dom A -> forall d', d' ∈ ds -> d' ∈ dom B) as HAs. { intros B -> d' Hd'. apply HA. by right. }
  destruct (a !! e) as [t0|] eqn:Ea.
  - rewrite (dom_incorporate_known dm a e r Hh) in Hi by by eexists. injection Hi as <- <-. rewrite insert_id in H by done.
    destruct (IH _ _ _ _ _ _ _ _ HW Hp (HAs A eq_refl) H) as (A' & p & ? & Hs & ? & ?). exists A', p. split; [done|]. split; [|done]. cbn [zip zip_with]. apply seats_known; [|done].
    unfold seat. rewrite HAd. cbn. by eexists.
  - destruct (dom_incorporate_score lg dm a e r dm' r1 Hlg Hh (Hp _ _ HWd) Ea Hi) as (t & Hh' & Hal & Hpos & Hsc).
    assert (world_holds (<[d := dm']> W) (<[d := <[e := t]> a]> A)) as HW1 by by apply world_holds_insert.
    assert (positive (<[d := dm']> W)) as Hp1. { intros d' dm1 [[<- <-]|[_ Hd']]%lookup_insert_Some; [rewrite Hal; by eapply Hp|by eapply Hp]. }
    assert (forall d', alpha_of (<[d := dm']> W) d' = alpha_of W d') as Hsame.
    { intros d'. unfold alpha_of. destruct (decide (d' = d)) as [->|Hne]; [by rewrite lookup_insert, HWd|by rewrite lookup_insert_ne]. }
    assert (forall d', d' ∈ ds -> d' ∈ dom (<[d := <[e := t]> a]> A)) as HA1.
    { apply HAs. rewrite dom_insert_L. assert (d ∈ dom A) by (apply elem_of_dom; by eexists). set_solver. }
    destruct (IH _ _ _ _ _ _ _ _ HW1 Hp1 HA1 H) as (A' & p & HW' & Hs & Hpp & E).
    exists A', (seat_prob (alpha_of W d) a t * p). assert (alpha_of W d = crp_alpha (dom_crp dm)) as Ed by (unfold alpha_of; by rewrite HWd). split; [done|]. split; [|split].
    + cbn [zip zip_with]. eapply seats_new; [done|done|]. clear -Hs Hsame. change (zip_with pair ds es) with (zip ds es). induction Hs; [constructor|by apply seats_known|]. rewrite Hsame. by eapply seats_new.
    + rewrite Ed. by apply Rmult_lt_0_compat.
    + rewrite E, Ed, ln_mult by done. unfold world_score. rewrite (sum_map_update _ _ _ _ _ HWd), Hsc. lra.
Qed.

Lemma map_fold_sum_acc {K B} `{Countable K} (f : B -> R) (m : gmap K B) : map_fold (fun _ b acc => acc + f b) 0 m = sum_map (fun _ b => f b) m.
Proof.
  induction m as [|k b m Hk IH] using map_ind; [by rewrite map_fold_empty, sum_map_empty|].
  rewrite map_fold_insert_L, sum_map_insert, IH by (try done; intros; lra). lra.
Qed.
Lemma world_clustering W A B : world_holds W A -> world_holds W B -> A = B.
Proof.
  intros HA HB. apply map_eq. intros d. specialize (HA d). specialize (HB d). destruct (W !! d) as [dm|], (A !! d) as [a|], (B !! d) as [b|]; try done.
  destruct HA as [_ Ha], HB as [_ Hb]. f_equal. by rewrite <- (hs_assign _ _ Ha), (hs_assign _ _ Hb).
Qed.

Section Rel.
Context {V : Type} {D : Dist V} (L : rlawful D).

Lemma rel_score_sum (rel : relation D) : rel_logp_score D rel = sum_map (fun _ c => d_score D c) (r_clusters rel).
Proof. apply map_fold_sum_acc. Qed.

Lemma block_history A rel z s : rel_holds L A rel -> r_clusters rel !! z = Some s -> exists l, dist_history D s l.
Proof.
  intros Hrel Hz. destruct (rh_blocks _ _ _ Hrel) as [hh Hb]. pose proof (Hb z) as E. rewrite Hz in E.
  destruct (values_in (block_of A (r_doms rel)) (r_data rel) z) as [|v l] eqn:Ev; [done|]. injection E as ->. exists (v :: l).
  apply history_fill; [apply rl_reached|]. rewrite <- Ev. apply values_in_Forall. intros k w Hw. by apply (rh_known _ _ _ Hrel k w).
Qed.

Lemma rel_incorporate_score lg W A rel items v r W' rel' r' : is_lgamma lg -> world_holds W A -> positive W -> rel_holds L A rel ->
  scores_predictively D -> (forall q q', (d_new D (r_spec rel) q).1 = (d_new D (r_spec rel) q').1) -> rel_incorporate D W rel items v r = Ok (W', rel', r') ->
  exists A' p q, world_holds W' A' /\ seats (alpha_of W) A (zip (r_doms rel) items) p A' /\ 0 < p /\ 0 < q /\ block_lik D rel (seat A') items v = Some q /\
    world_score lg W' = world_score lg W + ln p /\ rel_logp_score D rel' = rel_logp_score D rel + ln q.
Proof.
  intros Hlg HW Hp Hrel Hsp Hfr H. destruct (rel_incorporate_inv L W A rel items v r _ HW Hrel H) as (Hl & Hn & Hv).
  destruct (incorporate_items_spec L W A rel items r HW Hrel Hl Hn) as (W1 & idx & r1 & A1 & z & h0 & E & HW1 & Hext & Hz & _ & r0 & Hr0).
  unfold rel_incorporate in H. rewrite E in H. cbn [obind] in H. apply obind_Ok in H as (c & Hc%at_Ok & H). apply obind_Ok in H as (c' & Hc' & [= <- <- <-]).
  cbn [r_clusters set_data set_clusters] in Hc. rewrite lookup_insert in Hc. injection Hc as <-.
  assert (exists idx2 r2, incorporate_loop W (r_data_r rel) (r_doms rel) items items r = Ok (W1, idx2, r2)) as (idx2 & r2 & Hloop).
  { unfold incorporate_items in E. apply obind_Ok in E as (u & _ & E). apply obind_Ok in E as ([[W2 idx2] r2] & Hlp & E). exists idx2, r2. rewrite Hlp. do 3 f_equal.
    apply obind_Ok in E as (z2 & _ & E). destruct (r_clusters _ !! z2); [by injection E|]. destruct (make_new_distribution _ _ _). by injection E. }
  destruct (loop_score lg _ _ _ _ _ _ _ _ _ _ Hlg HW Hp (rh_doms _ _ _ Hrel) Hloop) as (A2 & p & HW2 & Hs & Hpp & Hws).
  rewrite <- (world_clustering _ _ _ HW1 HW2) in Hs. set (c0 := default (law_of L h0 []) (r_clusters rel !! z)) in *.
  assert (exists l, dist_history D c0 l) as [l Hl0].
  { unfold c0. destruct (r_clusters rel !! z) as [s|] eqn:Es; [by eapply block_history|]. exists []. cbn. rewrite <- Hr0. constructor. }
  destruct (Hsp c0 l v c' Hl0 Hc') as (lp & Hlp & Hsc). exists A1, p, (exp lp). split; [done|]. split; [done|]. split; [done|]. split; [apply exp_pos|]. split; [|split; [done|]].
  - unfold block_lik. unfold block_of in Hz. rewrite decide_True in Hz by done. rewrite Hz. cbn. rewrite (Hfr [] r0), Hr0. fold c0. by rewrite Hlp.
  - rewrite ln_exp, !rel_score_sum. cbn [r_clusters set_data set_clusters]. rewrite insert_insert. unfold c0 in *. destruct (r_clusters rel !! z) as [s|] eqn:Es; cbn in *.
    + rewrite (sum_map_update _ _ _ _ _ Es). lra.
    + rewrite sum_map_insert by done. rewrite (law_score_empty D L) in Hsc. lra.
Qed.
End Rel.

Section Hirm.
Context {V : Type}.
Implicit Types h : hirm V.

Lemma hirm_score_sum lg h : hirm_logp_score lg h = crp_logp_score lg (h_crp h) + sum_map (fun _ ir => irm_logp_score lg ir) (h_irms h).
Proof. unfold hirm_logp_score. by rewrite map_fold_sum_acc. Qed.

Lemma irm_incorporate_score lg ar h ir A name a obs items v r ir' r' : is_lgamma lg -> irm_holds ar ir A -> positive (i_domains ir) ->
  i_rels ir !! name = Some a -> t_predictive (any_type a obs) -> irm_incorporate (hirm_lookup h) ir name items v r = Ok (ir', r') ->
  exists A' p q, world_holds (i_domains ir') A' /\ seats (alpha_of (i_domains ir)) A (zip (any_doms a) items) p A' /\ 0 < p /\ 0 < q /\
    value_lik h ir (seat A') name items v = Some q /\ irm_logp_score lg ir' = irm_logp_score lg ir + ln p + ln q.
Proof.
  intros Hlg HA Hp Ha Ht H. unfold irm_incorporate in H. rewrite Ha in H. cbn [at_ obind] in H. apply obind_Ok in H as ([[W' a'] r1] & Hi & [= <- <-]).
  pose proof (ih_rels _ _ _ HA name a Ha) as Hah. rewrite !irm_score_sum. cbn [i_set_rel i_set_domains i_domains i_rels]. unfold value_lik. rewrite Ha.
  change (sum_map (fun _ dm => crp_logp_score lg (dom_crp dm))) with (world_score lg). unfold rels_score. rewrite (sum_map_update _ _ _ _ _ Ha).
  destruct a as [D rel|n]; cbn [any_incorporate any_doms any_type t_predictive] in *.
  - destruct Hah as [L Hrel]. apply obind_Ok in Hi as ([[W1 rel1] r2] & Hi & [= <- <- <-]). destruct Ht as [Hfr Hsp].
    destruct (rel_incorporate_score L lg _ A rel items v r _ _ _ Hlg (ih_world _ _ _ HA) Hp Hrel Hsp Hfr Hi) as (A' & p & q & ? & ? & ? & ? & ? & E1 & E2).
    exists A', p, q. repeat (split; [done|]). rewrite E1. cbn [any_score]. rewrite E2. lra.
  - destruct Hah as ([L Hrel] & _). apply obind_Ok in Hi as (b & Hb & Hi). apply obind_Ok in Hi as ([[W1 n1] r2] & Hi & [= <- <- <-]). destruct Ht as [Hfr Hsp].
    unfold base_of in Hb. apply obind_Ok in Hb as (ab & Hab%idx_Ok & [= <-]).
    unfold noisy_incorporate in Hi. apply obind_Ok in Hi as (bi & Hbi & Hi).
    apply obind_Ok in Hi as (bv & Hbv & Hi). apply obind_Ok in Hi as ([[W1' rel1] r1'] & Hi & [= <- <- <-]).
    unfold get_base_items in Hbi. simpl in Hbi. case_bool_decide; [|done]. injection Hbi as <-.
    unfold base_get_value in Hbv. apply obind_Ok in Hbv as (u & _ & Hbv%at_Ok). simpl in Hbv.
    destruct (rel_incorporate_score L lg _ A (n_rel n) items (bv, v) r _ _ _ Hlg (ih_world _ _ _ HA) Hp Hrel Hsp Hfr Hi) as (A' & p & q & ? & ? & ? & ? & ? & E1 & E2).
    exists A', p, q. repeat (split; [done|]). split; [by rewrite Hab; cbn; rewrite Hbv|]. rewrite E1. cbn [any_score n_set n_em n_rel]. rewrite E2. lra.
Qed.
End Hirm.
