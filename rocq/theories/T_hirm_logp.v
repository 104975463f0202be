(** The probability a HIRM gives to observations: C62. *)
From Coq Require Import String Ascii.
From stdpp Require Import gmap strings list.
From Coq Require Import ZArith Reals Lia Lra.
From Verif Require Import M_base M_math M_crp M_domain M_dist M_relation M_noisy M_irm M_logp M_hirm S_math S_crp S_crp_state S_relation S_logp S_irm S_hirm
  P_base P_math P_crp P_relation P_tally P_any P_irm P_irm_schema P_irm_history P_irm_gibbs P_logp P_hirm P_hirm_move P_hirm_history P_hirm_ctor T_irm T_hirm T_logp S_hirm_logp S_score P_hirm_pos.
Local Open Scope string_scope.
Local Open Scope list_scope.
Local Open Scope nat_scope.
Local Open Scope R_scope.

Section HirmLogp.
Context {V : Type}.
Notation observation := (string * items_t * V)%type.
Implicit Types h : hirm V.

Lemma groups_spec h obs : forall m0 m, foldM (group_by_table h) m0 obs = Ok m ->
  Forall (fun ob => is_Some (table_of h ob.1.1)) obs /\
  forall t, default [] (m !! t) = default [] (m0 !! t) ++ filter (in_cluster h t) obs /\
    (is_Some (m !! t) <-> is_Some (m0 !! t) \/ exists ob, ob ∈ obs /\ in_cluster h t ob).
Proof.
  induction obs as [|ob obs IH]; intros m0 m H; cbn [foldM] in H.
  { injection H as <-. split; [done|]. intros t. split; [by rewrite filter_nil, app_nil_r|]. split; [by left|]. intros [?|(ob & Hob & _)]; [done|by apply elem_of_nil in Hob]. }
  apply obind_Ok in H as (m1 & H1 & H). unfold group_by_table in H1. apply obind_Ok in H1 as (t0 & Ht0%relation_to_table_Ok & [= <-]).
  destruct (IH _ _ H) as [I1 I2]. split; [constructor; [by eexists|done]|]. intros t. destruct (I2 t) as [E1 E2]. rewrite E1, E2, filter_cons.
  destruct (decide (t = t0)) as [->|Hne].
  - rewrite lookup_insert. cbn. rewrite decide_True by done. rewrite <- app_assoc. split; [done|]. split.
    + intros _. right. exists ob. split; [left|done].
    + intros _. left. by eexists.
  - rewrite lookup_insert_ne by done. assert (~ in_cluster h t ob) as Hno by (unfold in_cluster; congruence). rewrite decide_False by done. split; [done|]. split.
    + intros [?|(ob' & Ho & Hc)]; [by left|right; exists ob'; split; [by right|done]].
    + intros [?|(ob' & [->|Ho]%elem_of_cons & Hc)]; [by left|done|right; by exists ob'].
Qed.
Lemma groups_ok h obs : Forall (fun ob => is_Some (table_of h ob.1.1)) obs -> forall m0, exists m, foldM (group_by_table h) m0 obs = Ok m.
Proof.
  induction 1 as [|ob obs [t Ht] _ IH]; intros m0; cbn [foldM]; [by eexists|]. unfold group_by_table at 1.
  assert (group_by_table h m0 ob = Ok (<[t := default [] (m0 !! t) ++ [ob]]> m0)) as E. { unfold group_by_table. by rewrite (proj2 (relation_to_table_Ok _ _ _) Ht). }
  destruct (IH (<[t := default [] (m0 !! t) ++ [ob]]> m0)) as [m Hm]. exists m. cbn [foldM]. fold (group_by_table h). rewrite (proj2 (relation_to_table_Ok _ _ _) Ht). exact Hm.
Qed.

(** One summand per cluster. *)
Definition part_step h (m : gmap Z (list observation)) : option R * rng -> Z -> outcome (option R * rng) := fun '(acc, r) t =>
  let* ir := at_ (h_irms h !! t) in let* (x, r) := irm_logp ir (default [] (m !! t)) r in Ok (lw_add acc x, r).
Lemma parts_spec h m ts : forall acc r x r', foldM (part_step h m) (acc, r) ts = Ok (x, r') ->
  exists ps, Forall2 (fun t p => exists ir r1 r2, h_irms h !! t = Some ir /\ irm_logp ir (default [] (m !! t)) r1 = Ok (p, r2)) ts ps /\ eexp x = eexp acc * Rprod (eexp <$> ps).
Proof.
  induction ts as [|t ts IH]; intros acc r x r' H; cbn [foldM] in H.
  { injection H as <- <-. exists []. split; [constructor|]. cbn. lra. }
  apply obind_Ok in H as ([acc1 r1] & H1 & H). cbn in H1. apply obind_Ok in H1 as (ir & Hir%at_Ok & H1). apply obind_Ok in H1 as ([y r2] & Hy & [= <- <-]).
  destruct (IH _ _ _ _ H) as (ps & HF & E). exists (y :: ps). split; [constructor; [by exists ir, r, r2|done]|].
  rewrite E, eexp_lw_add, fmap_cons, Rprod_cons. ring.
Qed.

Theorem C62_logp_product h a o obs r x r' : hirm_holds h a -> orders_ok o -> hirm_logp o h obs r = Ok (x, r') ->
  Forall (fun ob => is_Some (h_schema h !! ob.1.1)) obs /\
  exists ts ps, NoDup ts /\ (forall t, t ∈ ts <-> exists ob, ob ∈ obs /\ in_cluster h t ob) /\
    Forall2 (fun t p => exists ir r1 r2, h_irms h !! t = Some ir /\ irm_logp ir (filter (in_cluster h t) obs) r1 = Ok (p, r2)) ts ps /\
    eexp x = Rprod (eexp <$> ps).
Proof.
  intros Hh Ho H. unfold hirm_logp in H. apply obind_Ok in H as (m & Hm & H). destruct (groups_spec h obs ∅ m Hm) as [G1 G2]. split.
  { eapply Forall_impl; [exact G1|]. intros ob [t Ht]. apply (hh_schema _ _ Hh). unfold table_of in Ht. by destruct (h_code h !! ob.1.1). }
  assert (o_ents o (dom m) ≡ₚ elements (dom m)) as HP by apply Ho.
  destruct (parts_spec h m _ _ _ _ _ H) as (ps & HF & E). exists (o_ents o (dom m)), ps. split; [rewrite HP; apply NoDup_elements|]. split.
  { intros t. rewrite HP, elem_of_elements, elem_of_dom. rewrite (proj2 (G2 t)), lookup_empty. split; [by intros [[? ?]|?]|by right]. }
  split; [|rewrite E; cbn [eexp]; rewrite exp_0; ring].
  eapply Forall2_impl; [exact HF|]. intros t p (ir & r1 & r2 & Hir & Hp). exists ir, r1, r2. split; [done|]. rewrite (proj1 (G2 t)), lookup_empty in Hp. exact Hp.
Qed.

Lemma irm_logp_any_rng ar (ir : irm V) A obs r x r1 : irm_holds ar ir A -> positive (i_domains ir) -> all_fresh_determined ir ->
  (exists ob d e, ob ∈ obs /\ observation_mentions ir ob d e) -> irm_logp ir obs r = Ok (x, r1) ->
  forall r2, exists y r3, irm_logp ir obs r2 = Ok (y, r3) /\ eexp y = eexp x.
Proof.
  intros Hh Hp Hdet Hm H r2. destruct (irm_logp_inv ir obs r _ H) as [Hsh Hnd].
  destruct (irm_logp_specs ar ir A obs Hh Hp Hdet Hsh Hnd Hm) as (ents & opts & _ & _ & _ & Hall).
  destruct (Hall r) as [O1 V1], (Hall r2) as [O2 V2].
  assert (exists st, irm_logp ir obs r2 = Ok st) as [[y r3] Hy] by (apply O2, O1; by eexists).
  exists y, r3. split; [done|]. by rewrite (V1 _ _ H), (V2 _ _ Hy).
Qed.

Lemma cluster_mentions h a t ir obs : hirm_holds h a -> h_irms h !! t = Some ir -> Forall (observation_shape ir) (filter (in_cluster h t) obs) ->
  (exists ob, ob ∈ obs /\ in_cluster h t ob) -> exists ob d e, ob ∈ filter (in_cluster h t) obs /\ observation_mentions ir ob d e.
Proof.
  intros Hh Hir Hsh (ob & Hob & Hc). assert (ob ∈ filter (in_cluster h t) obs) as Hin by by apply elem_of_list_filter.
  destruct (proj1 (Forall_forall _ _) Hsh ob Hin) as (ar & Har & Hlen). pose proof (hh_irms _ _ Hh t) as Hi. rewrite Hir in Hi. destruct Hi as (_ & [A HA] & Hs).
  pose proof (ih_schema _ _ _ HA ob.1.1) as Hsc. rewrite Har in Hsc. destruct (i_schema ir !! ob.1.1) as [ty|] eqn:Ety; [|done].
  apply Hs in Ety as [Ety _]. pose proof (hh_domains _ _ Hh _ _ Ety) as Hne.
  assert (any_doms ar <> []) as Hd. { rewrite Hsc in Hne. by destruct ar. }
  destruct (any_doms ar) as [|d ds] eqn:Ed; [done|]. destruct ob as [[name items] v]; cbn in *. destruct items as [|e es]; [done|].
  exists (name, e :: es, v), d, e. split; [done|]. exists ar. split; [done|]. unfold mentions. rewrite Ed. cbn. left.
Qed.

Definition t_scores_at (v : V) (t : t_rel V) : Prop :=
  match t with TClean _ _ D _ => forall s, exists lp, d_logp D s v = Ok lp | TNoisy _ _ _ _ _ => True end.
Lemma filter_keys (P : observation -> Prop) `{!forall x, Decision (P x)} (l : list observation) : NoDup l.*1 -> NoDup (filter P l).*1.
Proof.
  induction l as [|x l IH]; [done|]. rewrite fmap_cons, filter_cons. intros [Hn Hd]%NoDup_cons. destruct (decide (P x)); [|by apply IH].
  rewrite fmap_cons. apply NoDup_cons. split; [|by apply IH]. intros (y & E & Hy)%elem_of_list_fmap. apply Hn. rewrite E. apply elem_of_list_fmap_1.
  by apply elem_of_list_filter in Hy as [_ Hy].
Qed.

(** The factor of one cluster. *)
Definition factor h (m : gmap Z (list observation)) (t : Z) : R :=
  match h_irms h !! t with
  | Some ir => match irm_logp ir (default [] (m !! t)) [] with Ok (y, _) => eexp y | _ => 0 end
  | None => 0
  end.
Lemma scorable_factor h a obs m t ir r p r1 : hirm_holds h a -> hirm_scorable h -> foldM (group_by_table h) ∅ obs = Ok m -> is_Some (m !! t) ->
  h_irms h !! t = Some ir -> irm_logp ir (default [] (m !! t)) r = Ok (p, r1) ->
  forall r2, exists y r3, irm_logp ir (default [] (m !! t)) r2 = Ok (y, r3) /\ eexp y = factor h m t.
Proof.
  intros Hh Hsc Hm Hmt Hir Hp r2. destruct (groups_spec h obs ∅ m Hm) as [G1 G2]. destruct (G2 t) as [E1 E2]. rewrite lookup_empty in E1, E2. cbn [default app] in E1.
  pose proof (hh_irms _ _ Hh t) as Hi. rewrite Hir in Hi. destruct Hi as (_ & [A HA] & _). destruct (Hsc _ _ Hir) as [S1 S2].
  assert (exists ob d e, ob ∈ default [] (m !! t) /\ observation_mentions ir ob d e) as Hme.
  { rewrite E1. eapply cluster_mentions; [done|done| |].
    - rewrite <- E1. exact (proj1 (irm_logp_inv _ _ _ _ Hp)).
    - apply E2 in Hmt as [[? ?]|?]; done. }
  destruct (irm_logp_any_rng _ ir A _ _ _ _ HA S1 S2 Hme Hp r2) as (y & r3 & Hy & Ey).
  destruct (irm_logp_any_rng _ ir A _ _ _ _ HA S1 S2 Hme Hp []) as (y0 & r30 & Hy0 & Ey0).
  exists y, r3. split; [done|]. unfold factor. rewrite Hir, Hy0. congruence.
Qed.
Lemma parts_run h m ts :
  Forall (fun t => exists ir, h_irms h !! t = Some ir /\ forall r2, exists y r3, irm_logp ir (default [] (m !! t)) r2 = Ok (y, r3) /\ eexp y = factor h m t) ts ->
  forall acc r, exists x r', foldM (part_step h m) (acc, r) ts = Ok (x, r') /\ eexp x = eexp acc * Rprod (factor h m <$> ts).
Proof.
  induction 1 as [|t ts (ir & Hir & Hy) _ IH]; intros acc r.
  { exists acc, r. split; [done|]. cbn. lra. }
  destruct (Hy r) as (y & r3 & Hyr & Ey). destruct (IH (lw_add acc y) r3) as (x & r' & Hx & Ex). exists x, r'. split.
  - cbn [foldM]. assert (part_step h m (acc, r) t = Ok (lw_add acc y, r3)) as ->. { cbn. rewrite Hir. cbn. by rewrite Hyr. } exact Hx.
  - rewrite Ex, eexp_lw_add, fmap_cons, Rprod_cons, Ey. ring.
Qed.
Lemma parts_steps h m ts : forall acc r x r', foldM (part_step h m) (acc, r) ts = Ok (x, r') ->
  Forall (fun t => exists ir r1 p r2, h_irms h !! t = Some ir /\ irm_logp ir (default [] (m !! t)) r1 = Ok (p, r2)) ts.
Proof.
  intros acc r x r' H. destruct (parts_spec h m ts _ _ _ _ H) as (ps & HF & _). clear H. induction HF as [|t p ts ps (ir & r1 & r2 & ?) _ IH]; constructor; [|done].
  by exists ir, r1, p, r2.
Qed.
Lemma Rprod_perm (l k : list R) : l ≡ₚ k -> Rprod l = Rprod k.
Proof. induction 1; rewrite ?Rprod_cons in *; try congruence. ring. Qed.

Lemma hirm_logp_factors h a o obs r x r' : hirm_holds h a -> hirm_scorable h -> orders_ok o -> hirm_logp o h obs r = Ok (x, r') ->
  exists m, foldM (group_by_table h) ∅ obs = Ok m /\ eexp x = Rprod (factor h m <$> elements (dom m)) /\
    Forall (fun t => exists ir, h_irms h !! t = Some ir /\ forall r2, exists y r3, irm_logp ir (default [] (m !! t)) r2 = Ok (y, r3) /\ eexp y = factor h m t) (elements (dom m)).
Proof.
  intros Hh Hsc Ho H. unfold hirm_logp in H. apply obind_Ok in H as (m & Hm & H). exists m. split; [done|].
  assert (o_ents o (dom m) ≡ₚ elements (dom m)) as HP by apply Ho.
  assert (Forall (fun t => exists ir, h_irms h !! t = Some ir /\ forall r2, exists y r3, irm_logp ir (default [] (m !! t)) r2 = Ok (y, r3) /\ eexp y = factor h m t) (o_ents o (dom m))) as HF.
  { apply Forall_forall. intros t Ht. pose proof (parts_steps h m _ _ _ _ _ H) as Hst. destruct (proj1 (Forall_forall _ _) Hst t Ht) as (ir & r1 & p & r2 & Hir & Hp).
    exists ir. split; [done|]. eapply scorable_factor; try done. apply elem_of_dom, elem_of_elements. by rewrite <- HP. }
  split; [|by rewrite <- HP].
  destruct (parts_run h m _ HF (Some 0) r) as (x' & r'' & Hx & Ex). unfold part_step in Hx. rewrite H in Hx. injection Hx as <- <-. rewrite Ex. cbn [eexp]. rewrite exp_0, Rmult_1_l. apply Rprod_perm. by rewrite HP.
Qed.

(** Neither the random draws nor the order of iterating the hash maps matters. *)
Theorem C62_logp_determined h a o o' obs r r' x r1 : hirm_holds h a -> hirm_scorable h -> orders_ok o -> orders_ok o' ->
  hirm_logp o h obs r = Ok (x, r1) -> exists y r2, hirm_logp o' h obs r' = Ok (y, r2) /\ eexp y = eexp x.
Proof.
  intros Hh Hsc Ho Ho' H. destruct (hirm_logp_factors h a o obs r x r1 Hh Hsc Ho H) as (m & Hm & Ex & HF).
  assert (o_ents o' (dom m) ≡ₚ elements (dom m)) as HP by apply Ho'. rewrite <- HP in HF.
  destruct (parts_run h m _ HF (Some 0) r') as (y & r2 & Hy & Ey). exists y, r2. split.
  - unfold hirm_logp. rewrite Hm. exact Hy.
  - rewrite Ey, Ex. cbn [eexp]. rewrite exp_0, Rmult_1_l. apply Rprod_perm. by rewrite HP.
Qed.

(** ** Entities with a cluster *)
Lemma Rprod_app (l k : list R) : Rprod (l ++ k) = Rprod l * Rprod k.
Proof. induction l as [|x l IH]; [change (Rprod k = 1 * Rprod k); lra|]. rewrite <- app_comm_cons, !Rprod_cons, IH. ring. Qed.
Lemma Rprod_one {X} (G G' : X -> R) (k : R) x0 xs : NoDup xs -> x0 ∈ xs -> G' x0 = k * G x0 -> (forall x, x <> x0 -> G' x = G x) -> Rprod (G' <$> xs) = k * Rprod (G <$> xs).
Proof.
  intros Hnd Hin H0 Hne. apply elem_of_list_split in Hin as (l1 & l2 & ->).
  assert (x0 ∉ l1 /\ x0 ∉ l2) as [N1 N2]. { apply NoDup_app in Hnd as (_ & Hd & Hn). apply NoDup_cons in Hn as [? _]. split; [|done]. intros Hx. apply (Hd _ Hx). left. }
  assert (forall l : list X, x0 ∉ l -> G' <$> l = G <$> l) as E. { intros l Hl. apply list_fmap_ext. intros i x Hi. apply Hne. intros ->. apply Hl. by eapply elem_of_list_lookup_2. }
  rewrite !fmap_app, !fmap_cons, !Rprod_app, !Rprod_cons, (E _ N1), (E _ N2), H0. ring.
Qed.
Lemma Rprod_groups h (F : observation -> R) ts obs : NoDup ts -> (forall ob, ob ∈ obs -> exists t, t ∈ ts /\ in_cluster h t ob) ->
  Rprod ((fun t => Rprod (F <$> filter (in_cluster h t) obs)) <$> ts) = Rprod (F <$> obs).
Proof.
  intros Hnd. induction obs as [|ob obs IH]; intros Hc.
  { clear. induction ts as [|t ts IH]; [done|]. rewrite fmap_cons, Rprod_cons, IH. cbn. lra. }
  destruct (Hc ob) as (t0 & Ht0 & Hob); [left|]. rewrite fmap_cons, Rprod_cons, <- IH by (intros ob' Ho; apply Hc; by right).
  apply Rprod_one with t0; [done|done| |].
  - rewrite filter_cons_True by done. by rewrite fmap_cons, Rprod_cons.
  - intros t Hne. rewrite filter_cons_False; [done|]. unfold in_cluster in *. congruence.
Qed.
Lemma observation_lik_ext (ir : irm V) c c' ob : (forall d e, c d e = c' d e) -> observation_lik ir c ob = observation_lik ir c' ob.
Proof.
  intros E. destruct ob as [[name items] v]. unfold observation_lik. destruct (i_rels ir !! name) as [[D rel|n]|]; [|done|done].
  assert (mapM (fun p => c p.1 p.2) (zip (r_doms rel) items) = mapM (fun p => c' p.1 p.2) (zip (r_doms rel) items)) as ->; [|done].
  generalize (zip (r_doms rel) items). intros l. induction l as [|p l IH]; [done|]. cbn. by rewrite E, IH.
Qed.
Lemma seat_entity ar (ir : irm V) A d e : irm_holds ar ir A -> seat A d e = entity_cluster ir d e.
Proof.
  intros HA. unfold entity_cluster, seat. pose proof (ih_world _ _ _ HA d) as Hw. destruct (i_domains ir !! d) as [dm|], (A !! d) as [a|]; try done. destruct Hw as [_ Hs]. cbn. by rewrite (hs_assign _ _ Hs).
Qed.

Theorem C62_logp_known h a o obs r x r' : hirm_holds h a -> hirm_scorable h -> orders_ok o ->
  (forall ob t ir d e, ob ∈ obs -> in_cluster h t ob -> h_irms h !! t = Some ir -> observation_mentions ir ob d e -> is_Some (entity_cluster ir d e)) ->
  hirm_logp o h obs r = Ok (x, r') ->
  eexp x = Rprod ((fun ob => default 0 (hirm_lik h ob)) <$> obs).
Proof.
  intros Hh Hsc Ho Hkn H. destruct (hirm_logp_factors h a o obs r x r' Hh Hsc Ho H) as (m & Hm & -> & HF).
  destruct (groups_spec h obs ∅ m Hm) as [G1 G2]. rewrite <- (Rprod_groups h _ (elements (dom m))).
  - f_equal. apply list_fmap_ext. intros i t Hi. destruct (proj1 (Forall_lookup _ _) HF i t Hi) as (ir & Hir & Hy). destruct (Hy []) as (y & r3 & Hyr & <-).
    destruct (G2 t) as [E1 E2]. rewrite lookup_empty in E1, E2. cbn [default app] in E1. rewrite E1 in Hyr.
    pose proof (hh_irms _ _ Hh t) as Hi'. rewrite Hir in Hi'. destruct Hi' as (_ & [A HA] & _). destruct (Hsc _ _ Hir) as [S1 S2].
    assert (is_Some (m !! t)) as Hmt by by eapply elem_of_dom, elem_of_elements, elem_of_list_lookup_2.
    erewrite C44_known_entities; [|exact HA|exact S1|exact S2| | |exact Hyr].
    + unfold joint_lik. f_equal. apply list_fmap_ext. intros j ob Hob%elem_of_list_lookup_2. apply elem_of_list_filter in Hob as [Hc Hob]. f_equal.
      unfold hirm_lik, in_cluster in *. rewrite Hc. cbn. rewrite Hir. cbn. apply observation_lik_ext. intros. by eapply seat_entity.
    + eapply cluster_mentions; [done|done|exact (proj1 (irm_logp_inv _ _ _ _ Hyr))|]. apply E2 in Hmt as [[? ?]|?]; done.
    + intros ob d e [Hc Hob]%elem_of_list_filter Hme. rewrite (seat_entity _ _ _ _ _ HA). by eapply Hkn.
  - apply NoDup_elements.
  - intros ob Hob. destruct (proj1 (Forall_forall _ _) G1 ob Hob) as [t Ht]. exists t. split; [|done]. apply elem_of_elements, elem_of_dom, G2. right. by exists ob.
Qed.

(** Observations of clean relations, with the right number of entities and no cell twice, are
    scored without an error whenever the distributions can score the values. *)
Theorem C62_succeeds h a o obs r : hirm_holds h a -> hirm_scorable h -> orders_ok o -> NoDup obs.*1 ->
  (forall name items v, (name, items, v) ∈ obs -> exists ds ob D sp, h_schema h !! name = Some (TClean ds ob D sp) /\
     length items = length ds /\ forall s, exists lp, d_logp D s v = Ok lp) ->
  exists x r', hirm_logp o h obs r = Ok (x, r').
Proof.
  intros Hh Hsc Ho Hnd Hobs.
  assert (forall name items v, (name, items, v) ∈ obs -> exists t ir A D rel, table_of h name = Some t /\ h_irms h !! t = Some ir /\
    irm_holds (schema_arity (h_schema h)) ir A /\ i_rels ir !! name = Some (AClean D rel) /\ length items = length (r_doms rel) /\ forall s, exists lp, d_logp D s v = Ok lp) as Hm.
  { intros name items v Hin. destruct (Hobs _ _ _ Hin) as (ds & ob & D & sp & Hty & Hl & Hs).
    destruct (member h a name _ Hh Hty) as (rc & tb & ir & A & x & _ & _ & Htb & Hir & HA & _ & Hx & Htx & _). exists tb, ir, A.
    destruct x as [D' rel|n]; [|done]. cbn [any_type t_observed] in Htx. assert (ds = r_doms rel) as -> by congruence.
    assert (forall s, exists lp, d_logp D' s v = Ok lp) as Hs'.
    { assert (t_scores_at v (TClean (r_doms rel) ob D sp)) as HX by exact Hs. rewrite Htx in HX. exact HX. }
    exists D', rel. done. }
  destruct (groups_ok h obs) with (m0 := (∅ : gmap Z (list observation))) as [m Hg].
  { apply Forall_forall. intros [[name items] v] Hin. destruct (Hm _ _ _ Hin) as (t & ? & ? & ? & ? & Ht & _). by exists t. }
  destruct (groups_spec h obs ∅ m Hg) as [_ G2]. unfold hirm_logp. rewrite Hg. cbn [obind]. fold (part_step h m).
  assert (o_ents o (dom m) ≡ₚ elements (dom m)) as HP by apply Ho.
  assert (forall t, t ∈ o_ents o (dom m) -> exists ir, h_irms h !! t = Some ir /\ forall r2, exists st, irm_logp ir (default [] (m !! t)) r2 = Ok st) as HF.
  { intros t Ht. rewrite HP, elem_of_elements, elem_of_dom in Ht. destruct (G2 t) as [E1 E2]. rewrite lookup_empty in E1, E2. cbn [default app] in E1.
    apply E2 in Ht as [[? ?]|([[name items] v] & Hin & Hc)]; [done|]. destruct (Hm _ _ _ Hin) as (t' & ir & A & D & rel & Ht' & Hir & HA & Hr & Hl & Hs).
    unfold in_cluster in Hc. cbn in Hc. rewrite Ht' in Hc. injection Hc as ->. exists ir. split; [done|]. intros r2. rewrite E1. destruct (Hsc _ _ Hir) as [S1 S2].
    assert (Forall (observation_shape ir) (filter (in_cluster h t) obs)) as Hsh.
    { apply Forall_forall. intros [[n' i'] v'] [Hc' Hin']%elem_of_list_filter. destruct (Hm _ _ _ Hin') as (t2 & ir2 & A2 & D2 & rel2 & Ht2 & Hir2 & _ & Hr2 & Hl2 & _).
      unfold in_cluster in Hc'. cbn in Hc'. assert (ir2 = ir) as -> by congruence. exists (AClean D2 rel2). done. }
    eapply C44_succeeds; [exact HA|exact S1|exact S2|exact Hsh| | |].
    - by apply filter_keys.
    - eapply cluster_mentions; [done|done|done|]. eexists. split; [exact Hin|done].
    - intros n' i' v' [Hc' Hin']%elem_of_list_filter. destruct (Hm _ _ _ Hin') as (t2 & ir2 & A2 & D2 & rel2 & Ht2 & Hir2 & _ & Hr2 & Hl2 & Hs2).
      unfold in_cluster in Hc'. cbn in Hc'. assert (ir2 = ir) as -> by congruence. by exists D2, rel2. }
  clear -HF. revert HF. generalize (o_ents o (dom m)) as ts. generalize (Some 0) as acc. revert r. intros r acc ts. revert r acc. induction ts as [|t ts IH]; intros r acc HF; cbn [foldM]; [by exists acc, r|].
  destruct (HF t) as (ir & Hir & Hst); [left|]. destruct (Hst r) as [[y r1] Hy].
  assert (part_step h m (acc, r) t = Ok (lw_add acc y, r1)) as ->. { cbn. rewrite Hir. cbn. by rewrite Hy. }
  apply IH. intros t' Ht'. apply HF. by right.
Qed.

(** Every state a user can reach meets the condition, if the distributions of the clean
    relations start from the same state whatever the random draws. *)
Lemma reached_scorable schema r0 h0 q0 cs h : schema_lawful schema -> hirm_new schema r0 = Ok (h0, q0) -> hirm_run h0 cs h ->
  (forall name ds ob D sp, h_schema h !! name = Some (TClean ds ob D sp) -> forall r r', (d_new D sp r).1 = (d_new D sp r').1) -> hirm_scorable h.
Proof.
  intros HL H0 Hrun Hd t ir Hir. split; [intros d dm; by eapply run_positive|].
  destruct (proj1 (hirm_new_spec schema r0 HL) _ _ H0) as [([a0 Hh0] & _) _]. destruct (hirm_run_spec h0 cs h Hrun a0 Hh0) as ([a Hh] & _ & _).
  intros name x Hx. pose proof (hh_irms _ _ Hh t) as Hi. rewrite Hir in Hi. destruct Hi as (_ & [A HA] & Hm).
  destruct (irm_schema_lookup _ ir A name x HA Hx) as (ty & Hty & Htx & _). apply Hm in Hty as [Hty _]. destruct x as [D rel|n]; [|done].
  cbn [any_type] in Htx. rewrite Htx in Hty. exact (Hd _ _ _ _ _ Hty).
Qed.
End HirmLogp.
Print Assumptions C62_logp_product.
Print Assumptions C62_logp_determined.
Print Assumptions C62_logp_known.
Print Assumptions C62_succeeds.

(** Two relations in different clusters, one entity each way known. *)
Definition C62_calls : list (hirm_call bool) :=
  [HAdd "q" (TClean ["d"] true tally_dist tt) [1]; HIncorporate "r" [1; 7]%Z true [0]; HIncorporate "r" [2; 7]%Z false [1]; HIncorporate "q" [5]%Z true [1]; HMove some_orders "q" 40%Z [0]]%nat.
Definition C62_obs : list (string * items_t * bool) := [("r", [2; 7]%Z, true); ("q", [5]%Z, false)].
Example C62_example : exists h0 q0 h a x r', schema_lawful C15_schema /\ hirm_new C15_schema [0; 1]%nat = Ok (h0, q0) /\ hirm_run h0 C62_calls h /\
  hirm_holds h a /\ hirm_scorable h /\ table_of h "r" <> table_of h "q" /\
  (forall ob t ir d e, ob ∈ C62_obs -> in_cluster h t ob -> h_irms h !! t = Some ir -> observation_mentions ir ob d e -> is_Some (entity_cluster ir d e)) /\
  hirm_logp some_orders h C62_obs [] = Ok (x, r').
Proof.
  assert ((let* h := (let* (h0, _) := hirm_new C15_schema [0; 1]%nat in foldM hirm_do h0 C62_calls) in
    let* tr := relation_to_table h "r" in let* tq := relation_to_table h "q" in let* ir := at_ (h_irms h !! tr) in let* iq := at_ (h_irms h !! tq) in
    Ok (bool_decide (tr = tq), bool_decide (is_Some (entity_cluster ir "d" 2)), bool_decide (is_Some (entity_cluster ir "c" 7)), bool_decide (is_Some (entity_cluster iq "d" 5)))) = Ok (false, true, true, true)) as H by by_compute.
  apply obind_Ok in H as (h & H & Hr). apply obind_Ok in Hr as (tr & Htr%relation_to_table_Ok & Hr). apply obind_Ok in Hr as (tq & Htq%relation_to_table_Ok & Hr).
  apply obind_Ok in Hr as (ir & Hir%at_Ok & Hr). apply obind_Ok in Hr as (iq & Hiq%at_Ok & Hr). injection Hr as E1 E2 E3 E4.
  apply bool_decide_eq_false in E1. apply bool_decide_eq_true in E2, E3, E4.
  destruct (start_and_run C15_schema [0; 1]%nat C62_calls h C15_schema_lawful) as (h0 & q0 & H0 & _ & Hrun); [|done|].
  { simpl. pose proof some_orders_ok as Ho. split_and!; try exact I; try exact Ho; [by exists tally_lawful|done]. }
  clear H. destruct (proj1 (hirm_new_spec C15_schema _ C15_schema_lawful) _ _ H0) as [([a0 Hh0] & _) Hs0].
  destruct (hirm_run_spec h0 C62_calls h Hrun a0 Hh0) as ([a Hh] & Hs & _).
  assert (h_schema h = <["q" := TClean ["d"] true tally_dist tt]> C15_schema) as Hsc by by rewrite Hs, Hs0.
  assert (h_schema h !! "r" = Some (TClean ["d"; "c"] true tally_dist tt)) as Hr. { rewrite Hsc, lookup_insert_ne by done. unfold C15_schema. by rewrite lookup_insert. }
  assert (h_schema h !! "q" = Some (TClean ["d"] true tally_dist tt)) as Hq by by rewrite Hsc, lookup_insert.
  assert (hirm_scorable h) as Hscor.
  { eapply reached_scorable; [apply C15_schema_lawful|exact H0|exact Hrun|]. intros name ds ob D sp Hty.
    assert (t_determined (TClean ds ob D sp : t_rel bool)) as [_ Hd]; [|exact Hd]. rewrite Hsc in Hty.
    apply lookup_insert_Some in Hty as [[_ <-]|[_ Hty]]; [split; [by_compute|done]|]. unfold C15_schema in Hty.
    apply lookup_insert_Some in Hty as [[_ <-]|[_ Hty]]; [split; [by_compute|done]|]. by apply lookup_singleton_Some in Hty as [_ ?]. }
  destruct (C62_succeeds h a some_orders C62_obs [] Hh Hscor some_orders_ok) as (x & r' & Hx).
  { by_compute. }
  { intros name items v Hin. unfold C62_obs in Hin. apply elem_of_cons in Hin as [[= -> -> ->]|[= -> -> ->]%elem_of_list_singleton].
    - exists ["d"; "c"], true, tally_dist, tt. split; [exact Hr|]. split; [done|]. intros s. by eexists.
    - exists ["d"], true, tally_dist, tt. split; [exact Hq|]. split; [done|]. intros s. by eexists. }
  exists h0, q0, h, a, x, r'. split; [apply C15_schema_lawful|]. split; [exact H0|]. split; [exact Hrun|]. split; [exact Hh|]. split; [exact Hscor|].
  split; [rewrite Htr, Htq; congruence|]. split; [|exact Hx].
  intros ob t i2 d e Hob Hc Hi2 (b & Hb & Hmen). unfold in_cluster in Hc.
  destruct (member h a "r" _ Hh Hr) as (? & tb & i3 & ? & y & _ & _ & Htb & Hi3 & _ & _ & Hy & Hty & _).
  destruct (member h a "q" _ Hh Hq) as (? & tb' & i4 & ? & y' & _ & _ & Htb' & Hi4 & _ & _ & Hy' & Hty' & _).
  assert (any_doms y = ["d"; "c"]) as D1. { cbn [t_observed] in Hty. rewrite <- (any_type_t_domains y true), <- Hty. done. }
  assert (any_doms y' = ["d"]) as D2. { cbn [t_observed] in Hty'. rewrite <- (any_type_t_domains y' true), <- Hty'. done. }
  unfold C62_obs in Hob. apply elem_of_cons in Hob as [->|Hob]; [|apply elem_of_list_singleton in Hob as ->]; cbn in Hb, Hmen, Hc.
  - assert (i2 = ir) as -> by congruence. assert (b = y) as -> by congruence. rewrite D1 in Hmen. unfold mentions in Hmen. cbn in Hmen.
    apply elem_of_cons in Hmen as [[= -> ->]|[= -> ->]%elem_of_list_singleton]; done.
  - assert (i2 = iq) as -> by congruence. assert (b = y') as -> by congruence. rewrite D2 in Hmen. unfold mentions in Hmen. cbn in Hmen.
    apply elem_of_list_singleton in Hmen as [= -> ->]. done.
Qed.
