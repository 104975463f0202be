(** Building a HIRM from its cluster file: the clusters. *)
From Coq Require Import String Ascii.
From stdpp Require Import gmap sorting strings list.
From Coq Require Import ZArith Reals Lia.
From Verif Require Import M_base M_dist M_crp M_domain M_relation M_noisy M_irm M_hirm M_text M_io M_clusters M_restore
  S_crp S_crp_state S_relation S_irm S_hirm S_clusters P_base P_crp P_domain P_relation P_any P_irm P_irm_schema P_irm_history P_hirm P_hirm_move P_hirm_history P_hirm_trans P_hirm_ctor
  P_clusters P_clusters_hirm S_restore P_restore.
Local Open Scope nat_scope.

Section Place.
Context {V : Type}.
Implicit Types (h hp : hirm V) (ir : irm V).

Lemma irm_domains_schema ar ir A d : irm_holds ar ir A -> d ∈ dom A <-> exists name t, i_schema ir !! name = Some t /\ d ∈ t_domains t.
Proof.
  intros Hh. rewrite (ih_used _ _ _ Hh). split.
  - intros (name & x & Hx & Hd). pose proof (ih_schema _ _ _ Hh name) as Hs. rewrite Hx in Hs. destruct (i_schema ir !! name) as [t|] eqn:E; [|done].
    exists name, t. split; [done|]. by rewrite Hs, any_type_t_domains.
  - intros (name & t & Ht & Hd). pose proof (ih_schema _ _ _ Hh name) as Hs. rewrite Ht in Hs. destruct (i_rels ir !! name) as [x|] eqn:E; [|done].
    exists name, x. split; [done|]. by rewrite Hs, any_type_t_domains in Hd.
Qed.
Lemma vacant_world ir A (B : clustering) : vacant ir -> world_holds (i_domains ir) A -> dom A = dom B -> world_holds (i_domains ir) ((fun _ => ∅) <$> B).
Proof.
  intros Hv HW Hd d. rewrite lookup_fmap. specialize (HW d). assert (is_Some (A !! d) <-> is_Some (B !! d)) as Hi by (rewrite <- !elem_of_dom; by rewrite Hd).
  destruct (i_domains ir !! d) as [dm|] eqn:E, (A !! d) as [a|], (B !! d) as [b|]; cbn; try done.
  - by eapply Hv.
  - destruct (proj1 Hi) as [? ?]; eauto; done.
  - destruct (proj2 Hi) as [? ?]; eauto; done.
Qed.
Lemma world_holds_fun W A A' : world_holds W A -> world_holds W A' -> A = A'.
Proof. intros H H'. by rewrite (clustering_of_holds _ _ H), (clustering_of_holds _ _ H'). Qed.
Lemma hirm_irms_schema h a t ir name : hirm_holds h a -> h_irms h !! t = Some ir ->
  is_Some (i_schema ir !! name) <-> table_of h name = Some t.
Proof.
  intros Hh Hir. pose proof (hh_irms _ _ Hh t) as Hi. rewrite Hir in Hi. destruct Hi as (_ & _ & Hi). split.
  - intros [ty Hty]. by apply Hi in Hty as [_ ?].
  - intros Ht. assert (is_Some (h_schema h !! name)) as [ty Hty].
    { destruct (h_schema h !! name) eqn:E; [eauto|]. by rewrite (undeclared_table h a name Hh E) in Ht. }
    exists ty. apply Hi. done.
Qed.
Lemma hirm_occupied h a t : hirm_holds h a -> is_Some (h_irms h !! t) <-> exists name, table_of h name = Some t.
Proof.
  intros Hh. pose proof (hh_irms _ _ Hh t) as Hi. split.
  - intros [ir Hir]. rewrite Hir in Hi. destruct Hi as ([rc Hrc%elem_of_customers_at]%set_choose_L & _).
    destruct (proj1 (hh_seated _ _ Hh rc)) as [name Hn]; [eauto|]. exists name. apply (code_at h a); eauto.
  - intros (name & (rc & Hn & Hrc)%(code_at h a)); [|done]. destruct (h_irms h !! t); [eauto|]. exfalso.
    assert (rc ∈ customers_at a t) as Hin by by apply elem_of_customers_at. rewrite Hi in Hin. by apply elem_of_empty in Hin.
Qed.
Lemma assert_sizes_Ok h a : hirm_holds h a -> assert_sizes h = Ok tt.
Proof. intros Hh. pose proof (holds_assert_clusters h a Hh) as Hac. unfold assert_clusters in Hac. apply obind_Ok in Hac as ([] & Hac & _). exact Hac. Qed.

Context (h : hirm V) (a0 : seating) (Hh : hirm_holds h a0) (o : orders) (Ho : orders_ok o).
Context (fwd0 fwd : gmap string (gmap string Z)) (rev rev' : gmap string (gmap Z string)) (Hd0 : decodes fwd0 rev) (Hd1 : decodes fwd rev').
Context (Hp : hirm_printable rev h).
Context (rels : gmap Z (list string)) (irms : gmap Z clusters).
Context (Hrels : forall t, is_Some (rels !! t) <-> is_Some (h_irms h !! t)) (Hirms : forall t, is_Some (irms !! t) <-> is_Some (h_irms h !! t))
  (Hat : forall t l, rels !! t = Some l -> relations_at h t l)
  (Hsh : forall t cl ir A, irms !! t = Some cl -> h_irms h !! t = Some ir -> world_holds (i_domains ir) A -> shows rev A cl).

(** Every name of the file is known to the new encoding. *)
Definition all_known : Prop := forall t ir A d i c x, h_irms h !! t = Some ir -> world_holds (i_domains ir) A -> seat A d i = Some c -> named rev d i x ->
  exists i', named rev' d i' x.

(** The clusters [done] are in place. *)
Definition placing (dn : gset Z) hp : Prop :=
  built (h_schema h) hp /\ h_schema hp = h_schema h /\ (-1)%Z ∉ dn /\
  (forall n, table_of hp n = (fun t => if decide (t ∈ dn) then t else (-1)%Z) <$> table_of h n) /\
  forall t ir, h_irms hp !! t = Some ir -> if decide (t ∈ dn)
    then exists ir0 A A0, h_irms h !! t = Some ir0 /\ world_holds (i_domains ir0) A /\ renamed rev rev' A A0 /\ world_holds (i_domains ir) A0
    else vacant ir.

(** *** One cluster of relations *)
Definition moving (t : Z) (dn : gset Z) hp (mv : list string) hm : Prop :=
  built (h_schema h) hm /\ h_schema hm = h_schema h /\
  (forall n, table_of hm n = if decide (n ∈ mv) then Some t else table_of hp n) /\
  (forall t', t' ∈ dn -> h_irms hm !! t' = h_irms hp !! t') /\
  forall t' ir, t' ∉ dn -> h_irms hm !! t' = Some ir -> vacant ir.
Lemma move_one t dn hp mv hm name r : placing dn hp -> t ∉ dn -> moving t dn hp mv hm -> table_of h name = Some t ->
  exists hm' r', place_relation o t (hm, r) name = Ok (hm', r') /\ moving t dn hp (mv ++ [name]) hm'.
Proof.
  intros (_ & _ & Hneg & Htp & _) Ht (Hb & Hs & Htm & Hdn & Hv) Hn. unfold place_relation. pose proof Hb as ([a Ha] & _ & Hl & Hdat).
  rewrite (assert_sizes_Ok hm a Ha). cbn [obind].
  assert (table_of hp name = Some (-1)%Z) as Hnp by by rewrite Htp, Hn; cbn; rewrite decide_False.
  destruct (decide (name ∈ mv)) as [Hin|Hin].
  - pose proof (Htm name) as E. rewrite decide_True in E by done. rewrite (proj2 (relation_to_table_Ok hm name t) E). cbn [obind].
    rewrite bool_decide_eq_true_2 by done. exists hm, r. split; [done|]. split_and!; [done..| |done|done].
    intros n. rewrite Htm. destruct (decide (n ∈ mv)) as [H|H], (decide (n ∈ mv ++ [name])) as [H'|H']; try done.
    + exfalso. apply H', elem_of_app. by left.
    + exfalso. apply elem_of_app in H' as [?|?%elem_of_list_singleton]; [done|]. by subst.
  - pose proof (Htm name) as E. rewrite decide_False, Hnp in E by done. rewrite (proj2 (relation_to_table_Ok hm name _) E). cbn [obind].
    assert (forall n, (if decide (n ∈ mv ++ [name]) then Some t else table_of hp n) = if decide (n = name) then Some t else table_of hm n) as Htt.
    { intros n. rewrite Htm. destruct (decide (n = name)) as [->|Hne]; [rewrite decide_True; [done|]; apply elem_of_app; right; by apply elem_of_list_singleton|].
      destruct (decide (n ∈ mv)) as [H|H], (decide (n ∈ mv ++ [name])) as [H'|H']; try done.
      + exfalso. apply H', elem_of_app. by left.
      + exfalso. apply elem_of_app in H' as [?|?%elem_of_list_singleton]; done. }
    case_bool_decide as Hc.
    + exists hm, r. split; [done|]. split_and!; [done..| |done|done]. intros n. rewrite Htt. destruct (decide (n = name)) as [->|]; [|done]. by rewrite E, Hc.
    + destruct (proj2 (set_cluster_spec hm a o name t r Ha Ho)) as ([h2 r2] & H2).
      { rewrite Hs. destruct (h_schema h !! name) eqn:E'; [eauto|]. by rewrite (undeclared_table h a0 name Hh E') in Hn. }
      { by eapply built_closed. } { by apply listed_exact_listed. }
      exists h2, r2. split; [done|]. pose proof (proj1 (set_cluster_spec hm a o name t r Ha Ho) _ _ H2) as Hm.
      pose proof (moved_built _ _ _ _ _ _ Hb Ha Hm) as Hb2. destruct Hm as (rc & _ & _ & _ & Hs2 & _ & _ & _ & Ht2).
      assert (hirm_data hm !! name = Some ∅) as Hdn0.
      { destruct (h_schema h !! name) as [ty|] eqn:E'; [|by rewrite (undeclared_table h a0 name Hh E') in Hn]. rewrite <- Hs in E'.
        destruct (member hm a name ty Ha E') as (? & ? & ? & ? & x & _ & _ & _ & _ & _ & _ & _ & _ & Hx).
        assert (hirm_data hm !! name = Some (any_data x)) as Hx' by by rewrite (hirm_data_lookup hm a name Ha), Hx. rewrite Hx'. f_equal. by eapply Hdat. }
      destruct (set_cluster_irms hm a o name t r h2 r2 Ha Ho Hdn0 H2) as (cur & Hcur & Hoth & Hvac). assert (cur = (-1)%Z) as -> by congruence.
      split_and!; [done|congruence| | |].
      * intros n. by rewrite Ht2, Htt.
      * intros t' Ht'. rewrite Hoth; [by apply Hdn|intros ->; done|intros ->; done].
      * intros t' ir Hout Hir. destruct (decide (t' = (-1)%Z \/ t' = t)) as [Hc'|Hc'].
        -- eapply Hvac; [|exact Hc'|exact Hir]. intros t1 ir1 Hc1 Hir1. eapply Hv; [|exact Hir1]. destruct Hc1 as [->| ->]; done.
        -- rewrite Hoth in Hir by tauto. by eapply Hv.
Qed.
Lemma move_all t dn hp l : placing dn hp -> t ∉ dn -> (forall n, n ∈ l -> table_of h n = Some t) -> forall mv hm r, moving t dn hp mv hm ->
  exists hm' r', foldM (place_relation o t) (hm, r) l = Ok (hm', r') /\ moving t dn hp (mv ++ l) hm'.
Proof.
  intros Hpl Ht. induction l as [|name l IH]; intros Hl mv hm r Hm; cbn [foldM]; [exists hm, r; by rewrite app_nil_r|].
  destruct (move_one t dn hp mv hm name r Hpl Ht Hm) as (h1 & r1 & E & H1); [apply Hl; by left|]. rewrite E. cbn [obind].
  destruct (IH ltac:(intros; apply Hl; by right) (mv ++ [name]) h1 r1 H1) as (h2 & r2 & E2 & H2). exists h2, r2. by rewrite <- app_assoc in H2.
Qed.

Lemma place_one t dn hp r : placing dn hp -> t ∉ dn -> is_Some (h_irms h !! t) ->
  (forall hp' r', place_irm o fwd rels irms (hp, r) t = Ok (hp', r') -> placing ({[ t ]} ∪ dn) hp') /\
  (all_known -> exists st, place_irm o fwd rels irms (hp, r) t = Ok st).
Proof.
  intros Hpl Ht Hsome. pose proof Hsome as [ir0 Hir0]. assert (is_Some (rels !! t)) as [rs Hrs] by by apply Hrels. assert (is_Some (irms !! t)) as [cl Hcl] by by apply Hirms.
  pose proof (Hat t rs Hrs) as [Hnd Hin]. pose proof Hpl as (Hb & Hs & Hneg & Htp & Hip). pose proof Hb as ([a Ha] & _).
  destruct (proj1 (hirm_occupied h a0 t Hh) Hsome) as [name0 Hname0].
  assert (t <> (-1)%Z) as Hne. { intros ->. pose proof (hp_tables _ _ Hp name0 _ Hname0) as [? _]. lia. }
  destruct (move_all t dn hp rs Hpl Ht) with (mv := @nil string) (hm := hp) (r := r) as (hm & r1 & Hfold & Hmv).
  { intros n Hn. by apply Hin. }
  { split_and!; [done|done| |done|].
    - intros n. rewrite decide_False; [done|]. apply not_elem_of_nil.
    - intros t' ir Ht' Hir. specialize (Hip t' ir Hir). by rewrite decide_False in Hip. }
  cbn [app] in Hmv. destruct Hmv as (Hbm & Hsm & Htm & Hdm & Hvm). pose proof Hbm as ([am Ham] & Hsub & Hlm & Hdatm).
  assert (table_of hm name0 = Some t) as Hn0. { rewrite Htm, decide_True; [done|]. by apply Hin. }
  destruct (proj2 (hirm_occupied hm am t Ham)) as [ir Hir]; [eauto|].
  destruct (irm_at_holds hm am t ir Ham Hir) as [Am HAm]. destruct (irm_at_holds h a0 t ir0 Hh Hir0) as [A HA].
  assert (forall n, table_of hm n = Some t <-> table_of h n = Some t) as Htt.
  { intros n. rewrite Htm. destruct (decide (n ∈ rs)) as [Hn|Hn]; [rewrite <- Hin; done|]. rewrite <- Hin. split; [|done].
    rewrite Htp. destruct (table_of h n) as [t'|]; [|done]. cbn. case_decide as Hd; intros [= E]; [by subst|]. congruence. }
  assert (i_schema ir = i_schema ir0) as Hisch.
  { apply map_eq. intros n. apply option_eq. intros ty. pose proof (hh_irms _ _ Ham t) as H1. rewrite Hir in H1. destruct H1 as (_ & _ & H1). rewrite H1.
    pose proof (hh_irms _ _ Hh t) as H2. rewrite Hir0 in H2. destruct H2 as (_ & _ & H2). by rewrite H2, Hsm, Htt. }
  assert (dom Am = dom A) as HdA.
  { apply set_eq. intros d. rewrite (irm_domains_schema _ _ _ d HAm), (irm_domains_schema _ _ _ d HA). by rewrite Hisch. }
  pose proof (ih_world _ _ _ HA) as HWA. pose proof (Hsh t cl ir0 A Hcl Hir0 HWA) as HshA. destruct (hp_irms _ _ Hp t ir0 A Hir0 HWA) as (Hprint & Htn & _).
  assert (forall d i c, seat A d i = Some c -> exists x, named rev d i x) as Hnamed.
  { intros d i c Hi. unfold seat in Hi. destruct (A !! d) as [ad|] eqn:E; [|done]. cbn in Hi. destruct (Hprint d ad E) as [_ Hx].
    destruct (Hx i c Hi) as (m & x & Hm & Hx' & _). exists x, m. done. }
  assert (forall r2, (forall d i c x, seat A d i = Some c -> named rev d i x -> exists i', named rev' d i' x) ->
    renamed rev rev' A (recode rev fwd A) /\ exists W, seat_clusters fwd cl (i_domains ir) r2 = Ok (W, r2) /\ world_holds W (recode rev fwd A)) as Hseat.
  { intros r2 Hk. pose proof (recode_renamed fwd0 rev fwd rev' A Hd0 Hd1 Hnamed Hk) as Hr. split; [done|].
    apply (seat_clusters_ok fwd rev'); [done|by eapply renamed_shows| |].
    - intros d ad i c Had Hi. assert (seat (recode rev fwd A) d i = Some c) as Hsd by (unfold seat; by rewrite Had).
      destruct (rn_named' _ _ _ _ Hr d i c Hsd) as (x & m & Hm & Hx). split; [|eauto].
      apply (recode_seat fwd0 rev fwd rev') in Hsd as (j & y & Hj & _); [|done..]. unfold seat in Hj. destruct (A !! d) as [b|] eqn:E; [|done]. cbn in Hj.
      destruct (Htn d b j c E Hj). done.
    - apply (vacant_world ir Am); [exact (Hvm t ir Ht Hir)|apply HAm|]. rewrite HdA. symmetry. apply Hr. }
  assert (size (i_rels ir) = length rs) as Hsize.
  { assert (dom (i_rels ir) = list_to_set rs) as Hdom.
    { apply set_eq. intros n. rewrite elem_of_dom, elem_of_list_to_set, Hin, <- Htt, <- (hirm_irms_schema hm am t ir n Ham Hir).
      pose proof (ih_schema _ _ _ HAm n) as Hsc. destruct (i_schema ir !! n), (i_rels ir !! n); try done; split; by intros [? ?]; eauto. }
    rewrite <- size_dom, Hdom. by apply size_list_to_set. }
  unfold place_irm. cbn [fst]. rewrite (assert_sizes_Ok hp a Ha). cbn [obind]. rewrite Hrs. change (default [] (Some rs)) with rs. cbv zeta. rewrite Hfold. cbn [obind].
  rewrite Hir, Hcl. cbn [at_ obind]. rewrite bool_decide_eq_true_2 by done. cbn [assert_ obind]. split.
  - intros hp' r' H. apply obind_Ok in H as ([W r2] & HW & [= <- <-]). destruct (Hseat r1) as (Hr & W' & HW' & HWh).
    { intros d i c x Hi Hx. destruct (shows_listed rev A cl d i c x HshA Hi Hx) as (m & l & Hm & Hl & Hxl).
      destruct (seat_clusters_known _ _ _ _ _ HW d m c l x Hm Hl Hxl) as (f & i' & Hf & Hi'). exists i'. apply (named_fwd fwd); eauto. }
    rewrite HW in HW'. injection HW' as <- <-.
    assert (forall n x, i_rels ir !! n = Some x -> any_data x = ∅) as Hempty.
    { intros n x Hx. assert (hirm_lookup hm n = Some x) as Hlk.
      { apply hirm_lookup_iff. exists t, ir. split_and!; [|done..]. apply (hirm_irms_schema hm am t ir n Ham Hir). pose proof (ih_schema _ _ _ HAm n) as Hsc.
        rewrite Hx in Hsc. destruct (i_schema ir !! n); [eauto|done]. }
      apply (Hdatm n). by rewrite (hirm_data_lookup hm am n Ham), Hlk. }
    assert (irm_holds (schema_arity (h_schema hm)) (i_set_domains ir W) (recode rev fwd A)) as Hnew.
    { unfold i_set_domains. apply (irm_holds_update _ ir Am W (i_rels ir) _ HAm HWh); [rewrite HdA; apply Hr|done|].
      intros n x Hx. eapply any_holds_ext; [| |exact (ih_rels _ _ _ HAm n x Hx)].
      - intros d Hd. rewrite (rn_domains _ _ _ _ Hr), <- HdA. apply (ih_used _ _ _ HAm). eauto.
      - intros d e (k & [v Hk] & _). by rewrite (Hempty n x Hx), lookup_empty in Hk. }
    pose proof (set_irm_holds hm am t ir _ _ Ham Hir Hnew eq_refl) as Hh'.
    split_and!.
    + split_and!; [by exists am|done|exact Hlm|]. intros n m. rewrite (set_irm_data hm am t ir _ _ Ham Hir Hnew eq_refl). case_decide as Hd; [|apply Hdatm].
      change (irm_data (i_set_domains ir W)) with (irm_data ir). rewrite (irm_data_at hm am t ir n Ham Hir Hd). apply Hdatm.
    + done.
    + intros [E%elem_of_singleton|?]%elem_of_union; [by apply Hne|done].
    + intros n. change (table_of hm n = (fun t0 => if decide (t0 ∈ {[t]} ∪ dn) then t0 else (-1)%Z) <$> table_of h n). rewrite Htm.
      destruct (decide (n ∈ rs)) as [Hn|Hn].
      * apply Hin in Hn. rewrite Hn. cbn. rewrite decide_True; [done|]. apply elem_of_union. left. by apply elem_of_singleton.
      * rewrite Htp. destruct (table_of h n) as [t'|] eqn:E; [|done]. cbn. assert (t' <> t) as Hnt. { intros ->. apply Hn. by apply Hin. }
        f_equal. destruct (decide (t' ∈ dn)) as [Hi|Hi]; [rewrite decide_True; [done|]; apply elem_of_union; by right|].
        rewrite decide_False; [done|]. intros [?%elem_of_singleton|?]%elem_of_union; done.
    + intros t' ir'. cbn [h_set_irms h_irms]. intros [[<- <-]|[Hnt E]]%lookup_insert_Some.
      * rewrite decide_True by (apply elem_of_union; left; by apply elem_of_singleton). exists ir0, A, (recode rev fwd A). done.
      * destruct (decide (t' ∈ dn)) as [Hi|Hi].
        -- rewrite decide_True by (apply elem_of_union; by right). rewrite Hdm in E by done. specialize (Hip t' ir' E). by rewrite decide_True in Hip.
        -- rewrite decide_False; [by eapply Hvm|]. intros [?%elem_of_singleton|?]%elem_of_union; congruence.
  - intros Hk. destruct (Hseat r1) as (_ & W & -> & _); [|cbn [obind]; eauto]. intros d i c x. eapply Hk; done.
Qed.

(** *** All of them *)
Lemma place_loop l : forall dn hp r, placing dn hp -> NoDup l -> (forall t, t ∈ l -> t ∉ dn /\ is_Some (h_irms h !! t)) ->
  (forall hp' r', foldM (place_irm o fwd rels irms) (hp, r) l = Ok (hp', r') -> exists dn', (forall t, t ∈ dn' <-> t ∈ dn \/ t ∈ l) /\ placing dn' hp') /\
  (all_known -> exists st, foldM (place_irm o fwd rels irms) (hp, r) l = Ok st).
Proof.
  induction l as [|t l IH]; intros dn hp r Hpl Hnd Hl; cbn [foldM].
  - split; [|eauto]. intros hp' r' [= <- <-]. exists dn. split; [|done]. intros t. rewrite elem_of_nil. tauto.
  - destruct (Hl t) as [Ht Hi]; [by left|]. apply NoDup_cons in Hnd as [Hnin Hnd].
    assert (forall t', t' ∈ l -> t' ∉ {[t]} ∪ dn /\ is_Some (h_irms h !! t')) as Hl'.
    { intros t' Ht'. destruct (Hl t') as [? ?]; [by right|]. split; [|done]. intros [?%elem_of_singleton|?]%elem_of_union; congruence. }
    destruct (place_one t dn hp r Hpl Ht Hi) as [H1 H2]. split.
    + intros hp' r' H. apply obind_Ok in H as ([h1 r1] & E & H). destruct (IH _ h1 r1 (H1 _ _ E) Hnd Hl') as [H3 _].
      destruct (H3 hp' r' H) as (dn' & Hdn & Hpl'). exists dn'. split; [|done]. intros t'. rewrite Hdn, elem_of_union, elem_of_singleton, elem_of_cons. tauto.
    + intros Hk. destruct (H2 Hk) as ([h1 r1] & E). rewrite E. cbn [obind]. by apply (proj2 (IH _ h1 r1 (H1 _ _ E) Hnd Hl')).
Qed.
(** A name that bases come before. *)
Definition bases_first : Prop := forall n ty b, h_schema h !! n = Some ty -> t_base ty = Some b -> str_le b n.
Lemma declared_placing hp : declared (h_schema h) hp -> h_schema hp = h_schema h -> placing ∅ hp.
Proof.
  intros [Hb Hv Ht] Hs. split_and!; [done|done|apply not_elem_of_empty| |].
  - intros n. rewrite Ht, Hs. destruct (h_schema h !! n) as [ty|] eqn:E.
    + rewrite decide_True by eauto. destruct (member h a0 n ty Hh E) as (? & tb & ? & ? & ? & _ & _ & Htb & _). rewrite Htb. cbn. by rewrite decide_False by apply not_elem_of_empty.
    + rewrite decide_False by (by intros [? ?]). by rewrite (undeclared_table h a0 n Hh E).
  - intros t ir Hir. rewrite decide_False by apply not_elem_of_empty. by eapply Hv.
Qed.
Lemma hirm_place_spec r :
  (forall h' r', hirm_place o (h_schema h) fwd rels irms r = Ok (h', r') ->
    built (h_schema h) h' /\ h_schema h' = h_schema h /\ (forall n, table_of h' n = table_of h n) /\
    forall t, match h_irms h !! t, h_irms h' !! t with
      | Some ir0, Some ir => exists A A0, world_holds (i_domains ir0) A /\ renamed rev rev' A A0 /\ world_holds (i_domains ir) A0
      | None, None => True | _, _ => False end) /\
  (all_known -> bases_first -> exists st, hirm_place o (h_schema h) fwd rels irms r = Ok st).
Proof.
  assert (forall n, n ∈ sorted_names (h_schema h) <-> is_Some (h_schema h !! n)) as Hsn.
  { intros n. unfold sorted_names. rewrite merge_sort_Permutation, elem_of_elements. apply elem_of_dom. }
  assert (forall h1 r1, foldM (declare_relation o (h_schema h)) (hirm_empty, r) (sorted_names (h_schema h)) = Ok (h1, r1) -> placing ∅ h1) as Hdecl.
  { intros h1 r1 E. destruct (declare_loop o (h_schema h) _ Ho (hh_lawful _ _ Hh) _ _ _ _ (declared_empty _) E) as [Hd Hiff]. apply declared_placing; [done|].
    apply map_eq. intros n. destruct Hd as [(_ & Hsub & _) _ _]. specialize (Hiff n). rewrite Hsn in Hiff. cbn [hirm_empty h_schema] in Hiff. rewrite lookup_empty in Hiff.
    destruct (h_schema h1 !! n) as [ty|] eqn:E1; [symmetry; by eapply lookup_weaken|]. destruct (h_schema h !! n) as [ty|]; [|done].
    destruct (proj2 Hiff) as [? ?]; [right; eauto|done]. }
  assert (forall t, t ∈ sorted_keys rels <-> is_Some (h_irms h !! t)) as Hk. { intros t. by rewrite P_base.elem_of_sorted_keys, Hrels. }
  assert (forall h2 dn', (forall t, t ∈ dn' <-> t ∈ (∅ : gset Z) \/ t ∈ sorted_keys rels) -> placing dn' h2 ->
    (forall n, table_of h2 n = table_of h n) /\ (-1)%Z ∉ dom (h_irms h2)) as Hfin.
  { intros h2 dn' Hdn (Hb & _ & Hneg & Ht & _). pose proof Hb as ([a2 Ha2] & _).
    assert (forall n, table_of h2 n = table_of h n) as Htab.
    { intros n. rewrite Ht. destruct (table_of h n) as [t|] eqn:E; [|done]. cbn. rewrite decide_True; [done|]. apply Hdn. right. apply Hk.
      apply (hirm_occupied h a0 t Hh). eauto. }
    split; [done|]. intros [n Hn]%elem_of_dom%(hirm_occupied h2 a2); [|done]. rewrite Htab in Hn. destruct (hp_tables _ _ Hp n _ Hn). lia. }
  unfold hirm_place. split.
  - intros h' r' H. apply obind_Ok in H as ([h1 r1] & E1 & H). apply obind_Ok in H as ([h2 r2] & E2 & H). apply obind_Ok in H as (u & _ & [= <- <-]).
    pose proof (Hdecl _ _ E1) as Hpl. destruct (proj1 (place_loop (sorted_keys rels) ∅ h1 r1 Hpl (P_base.NoDup_sorted_keys _) ltac:(intros t Ht; split; [apply not_elem_of_empty|by apply Hk])) _ _ E2) as (dn' & Hdn & Hpl2).
    destruct (Hfin h2 dn' Hdn Hpl2) as [Htab _]. pose proof Hpl2 as (Hb & Hs & _ & _ & Hi). pose proof Hb as ([a2 Ha2] & _). split_and!; [done..|].
    intros t. pose proof (hirm_occupied h a0 t Hh) as O1. pose proof (hirm_occupied h2 a2 t Ha2) as O2. setoid_rewrite Htab in O2.
    destruct (h_irms h !! t) as [ir0|] eqn:Ei, (h_irms h2 !! t) as [ir|] eqn:Ei2.
    + specialize (Hi t ir Ei2). rewrite decide_True in Hi by (apply Hdn; right; apply Hk; rewrite Ei; eauto). destruct Hi as (ir1 & A & A0 & E & HA & Hr & HA0).
      rewrite Ei in E. injection E as <-. eauto.
    + destruct (proj2 O2 (proj1 O1 (mk_is_Some _ ir0 eq_refl))) as [? ?]. done.
    + destruct (proj2 O1 (proj1 O2 (mk_is_Some _ ir eq_refl))) as [? ?]. done.
    + done.
  - intros Hkn Hbf. destruct (declare_loop_total o (h_schema h) (sorted_names (h_schema h)) Ho (hh_lawful _ _ Hh) (hh_domains _ _ Hh) hirm_empty r (declared_empty _)) as ([h1 r1] & E1).
    + apply NoDup_sorted_names.
    + intros n Hn. split; [by apply Hsn|]. apply lookup_empty.
    + intros l1 n l2 t b E Hn Hb. right. pose proof (Hbf n t b Hn Hb) as Hle. 
      destruct (base_facts h a0 n t b Hh Hn Hb) as (Hbn & tb & Htb & _). apply (sorted_before l1 l2 n b); rewrite <- ?E.
      * apply StronglySorted_sorted_names.
      * apply NoDup_sorted_names.
      * apply Hsn. eauto.
      * by split.
    + rewrite E1. cbn [obind]. pose proof (Hdecl _ _ E1) as Hpl.
      destruct (place_loop (sorted_keys rels) ∅ h1 r1 Hpl (P_base.NoDup_sorted_keys _) ltac:(intros t Ht; split; [apply not_elem_of_empty|by apply Hk])) as [P1 P2].
      destruct (P2 Hkn) as ([h2 r2] & E2). rewrite E2. cbn [obind]. destruct (P1 _ _ E2) as (dn' & Hdn & Hpl2). destruct (Hfin h2 dn' Hdn Hpl2) as [_ Hneg].
      rewrite bool_decide_eq_true_2 by done. cbn [assert_ obind]. eauto.
Qed.
End Place.
