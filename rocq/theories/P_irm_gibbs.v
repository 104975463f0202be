(** The scores an IRM compares when it moves an entity are, up to a common
    constant, the scores of the IRM after the move. *)
From Coq Require Import String Ascii.
From stdpp Require Import gmap strings sorting.
From Coq Require Import ZArith Reals Lra Lia.
From Verif Require Import M_base M_crp M_domain M_dist M_relation M_noisy M_irm
  S_crp S_crp_state S_relation S_irm P_base P_sum P_crp P_crp_score P_domain P_relation P_relation_gibbs P_any P_irm P_irm_schema
  P_irm_history.

Section Gibbs.
Context {V : Type}.
Implicit Types (ir : irm V) (A : clustering) (ar : string -> option nat).
Local Open Scope R_scope.

Lemma any_gibbs_difference ar o o' W A (a : any_rel V) d e t cur ts r lps a1 r1 i j x y r2 a' r' :
  world_holds W A -> any_holds ar A a -> orders_ok o -> orders_ok o' -> any_determined a ->
  any_gibbs o W a d e ts r = Ok (lps, a1, r1) -> seat A d e = Some cur ->
  ts !! i = Some t -> ts !! j = Some cur -> lps !! i = Some x -> lps !! j = Some y ->
  any_set_cluster o' W a d e t r2 = Ok (a', r') ->
  x - y = any_score a' - any_score a.
Proof.
  intros HW Ha (Hov & Hog & _) (Hov' & _) [Hnd Hfr] Hg Hcur Hti Htj Hx Hy Hs. destruct a as [D rel|n]; simpl in *.
  - destruct Ha as [L Hrel]. apply obind_Ok in Hg as ([[lps0 rel1] r1'] & Hg & [= <- <- <-]).
    apply obind_Ok in Hs as ([rel' r''] & Hs & [= <- <-]). simpl.
    refine (gibbs_exact_difference L _ _ _ _ _ _ _ _ _ _ _ _ _ _ _ _ _ _ _ _ _ _ HW Hrel Hov Hog Hov' Hnd _ Hg Hcur Hti Htj Hx Hy Hs).
    destruct (law_new D L (r_spec rel) []) as (h0 & Hh0). exists h0. intros q. by rewrite <- Hh0.
  - destruct Ha as ([L Hrel] & _). apply obind_Ok in Hg as ([[lps0 rel1] r1'] & Hg & [= <- <- <-]).
    apply obind_Ok in Hs as ([rel' r''] & Hs & [= <- <-]). simpl.
    refine (gibbs_exact_difference L _ _ _ _ _ _ _ _ _ _ _ _ _ _ _ _ _ _ _ _ _ _ HW Hrel Hov Hog Hov' Hnd _ Hg Hcur Hti Htj Hx Hy Hs).
    destruct (law_new _ L (r_spec (n_rel n)) []) as (h0 & Hh0). exists h0. intros q. by rewrite <- Hh0.
Qed.

Definition sum_names (delta : string -> R) (l : list string) : R := foldr (fun n acc => delta n + acc) 0 l.
Lemma sum_names_perm delta l l' : l ≡ₚ l' -> sum_names delta l = sum_names delta l'.
Proof. induction 1; simpl; lra. Qed.

Lemma add_lists_lookup xs ys i x : add_lists xs ys !! i = Some x -> exists a b, xs !! i = Some a /\ ys !! i = Some b /\ x = a + b.
Proof. unfold add_lists. intros H. apply lookup_zip_with_Some in H as (a & b & -> & ? & ?). eauto. Qed.

(** What scoring adds to the difference between two candidates. *)
Lemma accumulate_difference ar o ir A d e ts names delta i j logps r logps' r' x y :
  irm_holds ar ir A -> orders_ok o ->
  (forall name a, name ∈ names -> i_rels ir !! name = Some a ->
     (any_has_observation a d e = Ok true -> forall q lps a1 q1 x y,
        any_gibbs o (i_domains ir) a d e ts q = Ok (lps, a1, q1) -> lps !! i = Some x -> lps !! j = Some y -> delta name = x - y) /\
     (any_has_observation a d e = Ok false -> delta name = 0) /\ d ∈ any_doms a) ->
  foldM (accumulate_logps o d e ts) (ir, logps, r) names = Ok (ir, logps', r') ->
  logps' !! i = Some x -> logps' !! j = Some y ->
  exists x0 y0, logps !! i = Some x0 /\ logps !! j = Some y0 /\ x - y = x0 - y0 + sum_names delta names.
Proof.
  intros Hh Ho. revert logps r. induction names as [|name names IH]; intros logps r Hd Hf Hx Hy.
  { injection Hf as <- <-. exists x, y. split_and!; try done. simpl. lra. }
  cbn [foldM] in Hf. apply obind_Ok in Hf as ([[ir1 lp1] r1] & H1 & Hf).
  unfold accumulate_logps in H1. apply obind_Ok in H1 as (a & Ha%at_Ok & H1). apply obind_Ok in H1 as (b & Hb & H1).
  destruct (Hd name a) as (Hdt & Hdf & Hda); [left|done|].
  destruct (any_has_observation_spec ar A a d e (ih_rels _ _ _ Hh name a Ha) Hda) as (b' & Hb' & Hbm).
  rewrite Hb in Hb'. injection Hb' as <-.
  assert (forall n a, n ∈ names -> i_rels ir !! n = Some a ->
     (any_has_observation a d e = Ok true -> forall q lps a1 q1 x y,
        any_gibbs o (i_domains ir) a d e ts q = Ok (lps, a1, q1) -> lps !! i = Some x -> lps !! j = Some y -> delta n = x - y) /\
     (any_has_observation a d e = Ok false -> delta n = 0) /\ d ∈ any_doms a) as Hd' by (intros; apply Hd; [by right|done]).
  destruct b.
  - destruct (any_gibbs_pure ar o (i_domains ir) A a d e ts r (ih_world _ _ _ Hh) (ih_rels _ _ _ Hh name a Ha) Ho (proj1 Hbm eq_refl))
      as (lps & q & Hg & Hl).
    rewrite Hg in H1. cbn [obind] in H1. rewrite bool_decide_eq_true_2 in H1 by done. cbn [assert_ obind] in H1.
    rewrite (i_set_rel_id ir name a Ha) in H1. injection H1 as <- <- <-.
    destruct (IH _ _ Hd' Hf Hx Hy) as (x1 & y1 & Hx1 & Hy1 & Hdiff).
    destruct (add_lists_lookup _ _ _ _ Hx1) as (x0 & lx & Hx0 & Hlx & ->).
    destruct (add_lists_lookup _ _ _ _ Hy1) as (y0 & ly & Hy0 & Hly & ->).
    exists x0, y0. split_and!; try done. simpl. rewrite (Hdt Hb r lps a q lx ly Hg Hlx Hly). lra.
  - injection H1 as <- <- <-. destruct (IH _ _ Hd' Hf Hx Hy) as (x1 & y1 & Hx1 & Hy1 & Hdiff).
    exists x1, y1. split_and!; try done. simpl. rewrite (Hdf Hb). lra.
Qed.

Definition rels_score (rels : gmap string (any_rel V)) : R := sum_map (fun _ a => any_score a) rels.

Lemma set_loop_score o schema W d2r b2n d e t names delta rels r ir' r' :
  NoDup names ->
  (forall name a, name ∈ names -> rels !! name = Some a ->
     (any_has_observation a d e = Ok true -> forall q a' q', any_set_cluster o W a d e t q = Ok (a', q') ->
        delta name = any_score a' - any_score a) /\
     (any_has_observation a d e = Ok false -> delta name = 0)) ->
  foldM (set_cluster_r o d e t) (Irm schema W rels d2r b2n, r) names = Ok (ir', r') ->
  i_domains ir' = W /\ rels_score (i_rels ir') = rels_score rels + sum_names delta names.
Proof.
  intros Hnd. revert rels r. induction names as [|name names IH]; intros rels r Hd Hf.
  { injection Hf as <- <-. split; [done|]. simpl. lra. }
  apply NoDup_cons in Hnd as [Hni Hnd]. cbn [foldM] in Hf. apply obind_Ok in Hf as ([ir1 r1] & H1 & Hf).
  unfold set_cluster_r in H1. simpl in H1. apply obind_Ok in H1 as (a & Ha%at_Ok & H1). apply obind_Ok in H1 as (b & Hb & H1).
  destruct (Hd name a) as (Hdt & Hdf); [left|done|]. destruct b.
  - apply obind_Ok in H1 as ([a' q'] & Hs & [= <- <-]). unfold i_set_rel in Hf. simpl in Hf.
    destruct (IH Hnd (<[name := a']> rels) q') as [HW Hsc]; [|exact Hf|].
    { intros n b Hn Hnb. assert (n <> name) by (intros ->; done). rewrite lookup_insert_ne in Hnb by done.
      apply Hd; [by right|done]. }
    split; [done|]. rewrite Hsc. unfold rels_score. rewrite (sum_map_update _ rels name a a' Ha). simpl.
    rewrite (Hdt Hb r a' q' Hs). lra.
  - injection H1 as <- <-. destruct (IH Hnd rels r) as [HW Hsc]; [|exact Hf|].
    { intros n b Hn Hnb. apply Hd; [by right|done]. }
    split; [done|]. rewrite Hsc. simpl. rewrite (Hdf Hb). lra.
Qed.

Lemma set_loop_world o d e t (st st' : irm V) names r r' :
  foldM (set_cluster_r o d e t) (st, r) names = Ok (st', r') -> i_domains st' = i_domains st.
Proof.
  revert st r. induction names as [|name names IH]; intros st r H; cbn [foldM] in H; [by injection H as <- <-|].
  apply obind_Ok in H as ([ir1 r1] & H1 & H). rewrite (IH _ _ H). clear IH H.
  unfold set_cluster_r in H1. apply obind_Ok in H1 as (a & _ & H1). apply obind_Ok in H1 as (b & _ & H1).
  destruct b; [|by injection H1 as <- <-]. by apply obind_Ok in H1 as ([a' q'] & _ & [= <- <-]).
Qed.

(** Two moves of the same relation score the same whatever the order and the draws. *)
Lemma any_move_score_indep ar o W A (a : any_rel V) d e t cur r1 a1 q1 r2 a2 q2 :
  world_holds W A -> any_holds ar A a -> orders_ok o -> any_determined a -> seat A d e = Some cur ->
  any_set_cluster o W a d e t r1 = Ok (a1, q1) -> any_set_cluster o W a d e t r2 = Ok (a2, q2) ->
  any_score a1 - any_score a = any_score a2 - any_score a.
Proof.
  intros HW Ha Ho Hdet Hcur H1 H2.
  assert (any_mentions a d e) as Hm.
  { destruct a as [D rel|n]; simpl in *.
    - destruct Ha as [L Hrel]. apply obind_Ok in H1 as ([rel1 ?] & H1 & _).
      destruct (rel_set_cluster_inv W A rel _ d e t r1 _ HW H1) as (cur' & m & s & _ & _ & Hm & Hs).
      destruct (index_lookup L rel A d e m s Hrel Hm Hs) as [Hobs Hsne]. subst s. by apply (elem_of_obs (AClean D rel)).
    - destruct Ha as ([L Hrel] & Hdom & _). apply obind_Ok in H1 as ([rel1 ?] & H1 & _).
      destruct (rel_set_cluster_inv W A (n_rel n) _ d e t r1 _ HW H1) as (cur' & m & s & _ & _ & Hm & Hs).
      destruct (index_lookup L (n_rel n) A d e m s Hrel Hm Hs) as [Hobs Hsne]. subst s.
      rewrite noisy_obs in Hsne by done. by apply (elem_of_obs (ANoisy n)). }
  destruct (any_gibbs_pure ar o W A a d e [t; cur] [] HW Ha Ho Hm) as (lps & r' & Hg & Hl).
  destruct lps as [|x [|y [|]]]; try done.
  rewrite <- (any_gibbs_difference ar o o W A a d e t cur [t; cur] [] [x; y] a r' 0 1 x y r1 a1 q1) by done.
  rewrite <- (any_gibbs_difference ar o o W A a d e t cur [t; cur] [] [x; y] a r' 0 1 x y r2 a2 q2) by done.
  done.
Qed.

Lemma irm_score_sum lg ir : irm_logp_score lg ir =
  sum_map (fun _ dm => crp_logp_score lg (dom_crp dm)) (i_domains ir) + rels_score (i_rels ir).
Proof.
  assert (forall {K B} `{Countable K} (f : B -> R) (m : gmap K B),
    map_fold (fun _ b acc => acc + f b) 0 m = sum_map (fun _ b => f b) m) as Hs.
  { intros K B ? ? f m. induction m as [|k b m Hk IH] using map_ind; [by rewrite map_fold_empty, sum_map_empty|].
    rewrite map_fold_insert_L, sum_map_insert, IH by (try done; intros; lra). lra. }
  unfold irm_logp_score, rels_score. by rewrite !Hs.
Qed.

Lemma dom_move_score lg dm a e cur t dm' w wt wc :
  is_lgamma lg -> 0 < crp_alpha (dom_crp dm) -> domain_holds dm a -> a !! e = Some cur ->
  crp_tables_weights_gibbs (dom_crp dm) cur = Ok w -> w !! t = Some wt -> w !! cur = Some wc ->
  dom_set_cluster dm e t = Ok dm' ->
  ln wt - ln wc = crp_logp_score lg (dom_crp dm') - crp_logp_score lg (dom_crp dm).
Proof.
  intros Hlg Hal [_ Hds] He Hw Ht Hc Hset.
  destruct (gibbs_weights (dom_crp dm) a e cur Hds He) as (w' & tnew & Hw' & Hnew & Hcn & Hlk & _).
  rewrite Hw in Hw'. injection Hw' as <-.
  unfold dom_set_cluster in Hset. apply obind_Ok in Hset as (u & _ & Hset). apply obind_Ok in Hset as (cu & _ & Hset).
  apply obind_Ok in Hset as (u' & _ & Hset). apply obind_Ok in Hset as (c1 & H1 & Hset). apply obind_Ok in Hset as (c2 & H2 & [= <-]).
  simpl. destruct (holds_unincorporate (dom_crp dm) a e cur Hds He) as (c1' & H1' & Hh1 & Hal1).
  rewrite H1 in H1'. injection H1' as <-.
  assert (crp_incorporate c1 e cur = Ok (dom_crp dm)) as H3.
  { eapply unincorporate_incorporate; [exact Hds| |done]. by rewrite (hs_assign _ _ Hds). }
  assert (0 < crp_alpha c1) as Hal1' by (rewrite Hal1; lra).
  pose proof (score_incorporate lg c1 (delete e a) e t c2 Hlg Hh1 Hal1' H2) as S2.
  pose proof (score_incorporate lg c1 (delete e a) e cur (dom_crp dm) Hlg Hh1 Hal1' H3) as S3.
  rewrite Hlk in Ht, Hc. rewrite Hal1 in S2, S3.
  assert (forall t' x, (if decide (customers_at (delete e a) t' = ∅) then if decide (t' = tnew) then Some (crp_alpha (dom_crp dm)) else None
      else Some (INR (size (customers_at (delete e a) t')))) = Some x ->
    (if decide (customers_at (delete e a) t' = ∅) then ln (crp_alpha (dom_crp dm)) else ln (INR (size (customers_at (delete e a) t')))) = ln x) as Hln.
  { intros t' x Hx. destruct (decide (customers_at (delete e a) t' = ∅)); [|by simplify_eq]. destruct (decide (t' = tnew)); [|done]. by simplify_eq. }
  apply Hln in Ht. apply Hln in Hc. lra.
Qed.

Definition all_determined ir : Prop := forall name a, i_rels ir !! name = Some a -> any_determined a.
Definition positive (W : world) : Prop := forall d dm, W !! d = Some dm -> 0 < crp_alpha (dom_crp dm).

Lemma sorted_keys_lookup {B} (w : gmap Z B) i t : sorted_keys w !! i = Some t -> is_Some (w !! t).
Proof. intros H. apply elem_of_sorted_keys. by eapply elem_of_list_lookup_2. Qed.

(** The scores of two candidates differ as the scores of the IRM after the two moves. *)
Lemma irm_gibbs_target ar lg o o' ir A d e cur t i j tables logps ir1 r r1 x y ir' r2 r' :
  is_lgamma lg -> irm_holds ar ir A -> orders_ok o -> orders_ok o' -> positive (i_domains ir) -> all_determined ir ->
  seat A d e = Some cur ->
  irm_item_logps o ir d e r = Ok (tables, logps, ir1, r1) ->
  tables !! i = Some t -> tables !! j = Some cur -> logps !! i = Some x -> logps !! j = Some y ->
  irm_move_item o' ir d e t r2 = Ok (ir', r') ->
  x - y = irm_logp_score lg ir' - irm_logp_score lg ir.
Proof.
  intros Hlg Hh Ho Ho' Hpos Hdet Hcur Hlp Hti Htj Hx Hy Hmv.
  destruct (irm_item_logps_spec ar o ir A d e cur r Hh Ho Hcur)
    as (dm & sa & w & tables' & logps' & r1' & Hlp' & HWd & HAd & Hsa & Hw & Htab & Hne & Hlen).
  rewrite Hlp in Hlp'. injection Hlp' as -> -> -> ->. subst tables'.
  pose proof (ih_world _ _ _ Hh d) as Hdm. rewrite HWd, HAd in Hdm.
  unfold irm_item_logps in Hlp. rewrite HWd in Hlp. cbn [at_ obind] in Hlp.
  unfold dom_tables_weights_gibbs in Hlp. pose proof (dom_get_cluster_spec dm sa e Hdm) as Hgc. rewrite Hsa in Hgc.
  rewrite Hgc in Hlp. cbn [obind] in Hlp. rewrite Hw in Hlp. cbn [obind] in Hlp.
  unfold irm_move_item in Hmv.
  pose proof (ih_d2r _ _ _ Hh d) as Hd2. destruct (i_d2r ir !! d) as [s|] eqn:Es; [|done]. destruct Hd2 as [_ Hs].
  cbn [at_ obind] in Hlp, Hmv. apply obind_Ok in Hlp as ([[ir2 lp2] q2] & Hacc & [= -> -> ->]).
  apply obind_Ok in Hmv as ([ir3 q3] & Hloop & Hmv).
  assert (Irm (i_schema ir) (i_domains ir) (i_rels ir) (i_d2r ir) (i_b2n ir) = ir) as Heta by by destruct ir.
  rewrite <- Heta in Hloop.
  assert (forall o, orders_ok o -> forall name, name ∈ o_names o s <-> exists a, i_rels ir !! name = Some a /\ d ∈ any_doms a) as Hin.
  { intros o1 (_ & _ & Hon & _) name. by rewrite Hon, elem_of_elements, Hs. }
  set (delta := fun name => match i_rels ir !! name with
    | Some a => match any_has_observation a d e with
                | Ok true => match any_set_cluster o' (i_domains ir) a d e t [] with
                             | Ok (a', _) => any_score a' - any_score a | _ => 0 end
                | _ => 0 end
    | None => 0 end).
  destruct (decide (t = cur)) as [->|Htc].
  { (* cannot happen: the move asserts that the cluster changes *)
    exfalso. apply obind_Ok in Hmv as (dm1 & Hdm1 & Hmv). apply obind_Ok in Hmv as (dm2 & Hset & _).
    pose proof (set_loop_world o' d e cur _ _ _ _ _ Hloop) as HWe. rewrite HWe in Hdm1. unfold deref in Hdm1.
    simpl in Hdm1. rewrite HWd in Hdm1. injection Hdm1 as <-. unfold dom_set_cluster in Hset.
    apply obind_Ok in Hset as (? & _ & Hset). apply obind_Ok in Hset as (c & Hc%at_Ok & Hset).
    apply obind_Ok in Hset as (? & Hne'%assert_Ok & _). apply bool_decide_eq_true in Hne'.
    destruct Hdm as [_ Hds]. rewrite (hs_assign _ _ Hds), Hsa in Hc. congruence. }
  assert (forall name a, i_rels ir !! name = Some a -> any_has_observation a d e = Ok true -> d ∈ any_doms a ->
    exists a' q, any_set_cluster o' (i_domains ir) a d e t [] = Ok (a', q)) as Hsome.
  { intros name a Ha Hb Hda.
    destruct (any_has_observation_spec ar A a d e (ih_rels _ _ _ Hh name a Ha) Hda) as (b & Hb' & Hbm).
    rewrite Hb in Hb'. injection Hb' as <-.
    destruct (any_set_cluster_spec ar o' (i_domains ir) A a d e t cur [] (ih_world _ _ _ Hh) (ih_rels _ _ _ Hh name a Ha) Ho'
      (proj1 Hbm eq_refl) Hcur Htc) as (a' & q & Hsc & _). eauto. }
  epose proof (fun H => accumulate_difference ar o ir A d e (sorted_keys w) (o_names o s) delta i j _ _ _ _ x y Hh Ho H Hacc Hx Hy) as Hdiff.
  destruct Hdiff as (x0 & y0 & Hx0 & Hy0 & Hdiff).
  { intros name a Hn Ha. apply Hin in Hn as (a0 & Ha0 & Hda); [|done]. rewrite Ha in Ha0. injection Ha0 as <-.
    split_and!; [| |done].
    - intros Hb q lps a1 q1 x1 y1 Hg Hx1 Hy1. unfold delta. rewrite Ha, Hb.
      destruct (Hsome name a Ha Hb Hda) as (a' & q' & Hsc). rewrite Hsc. symmetry.
      eapply (any_gibbs_difference ar o o'); [apply Hh|by eapply ih_rels|done|done|by eapply Hdet|exact Hg|done|exact Hti|exact Htj|done|done|exact Hsc].
    - intros Hb. unfold delta. by rewrite Ha, Hb. }
  epose proof (fun H1 H2 => set_loop_score o' _ _ _ _ d e t (o_names o' s) delta _ _ _ _ H1 H2 Hloop) as Hsl.
  destruct Hsl as [HW' Hsc'].
  { destruct Ho' as (_ & _ & Hon & _). rewrite Hon. apply NoDup_elements. }
  { intros name a Hn Ha. apply Hin in Hn as (a0 & Ha0 & Hda); [|done]. rewrite Ha in Ha0. injection Ha0 as <-. split.
    - intros Hb q a' q' Hq. unfold delta. rewrite Ha, Hb. destruct (Hsome name a Ha Hb Hda) as (a2 & q2' & Hsc2). rewrite Hsc2.
      eapply any_move_score_indep; [apply Hh|by eapply ih_rels|exact Ho'|by eapply Hdet|exact Hcur|exact Hsc2|exact Hq].
    - intros Hb. unfold delta. by rewrite Ha, Hb. }
  apply obind_Ok in Hmv as (dm1 & Hdm1 & Hmv). apply obind_Ok in Hmv as (dm2 & Hset & [= <- <-]).
  rewrite HW' in Hdm1. unfold deref in Hdm1. rewrite HWd in Hdm1. injection Hdm1 as <-.
  rewrite !irm_score_sum. simpl. rewrite HW', (sum_map_update _ _ d dm dm2 HWd), Hsc'.
  rewrite list_lookup_fmap, Hti in Hx0. injection Hx0 as <-. rewrite list_lookup_fmap, Htj in Hy0. injection Hy0 as <-.
  destruct (sorted_keys_lookup w i t Hti) as [wt Hwt]. destruct (sorted_keys_lookup w j cur Htj) as [wc Hwc].
  rewrite Hwt, Hwc in Hdiff. simpl in Hdiff.
  pose proof (dom_move_score lg dm sa e cur t dm2 w wt wc Hlg (Hpos d dm HWd) Hdm Hsa Hw Hwt Hwc Hset) as HD.
  rewrite (sum_names_perm delta (o_names o s) (o_names o' s)) in Hdiff.
  2:{ destruct Ho as (_ & _ & -> & _). destruct Ho' as (_ & _ & -> & _). done. }
  lra.
Qed.
End Gibbs.
