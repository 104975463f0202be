(** The popularity of entities when sampling from a HIRM. *)
From stdpp Require Import gmap strings list.
From Coq Require Import ZArith Reals Lia.
From Verif Require Import M_base M_math M_crp M_domain M_dist M_relation M_noisy M_irm M_hirm S_crp S_crp_state S_relation S_irm S_hirm
  P_base P_crp P_domain S_sample.

(** The CRPs hold the seatings [S], whose customers are numbered from 0. *)
Definition crps_hold (m : gmap string crp) (S : string -> seating) : Prop :=
  forall d, holds_seating (default crp_new (m !! d)) (S d) /\ forall i, is_Some (S d !! i) <-> (0 <= i < Z.of_nat (size (S d)))%Z.
Definition seat_in (S : string -> seating) (d : string) (i e : Z) : string -> seating :=
  fun d' => if decide (d' = d) then <[i := e]> (S d) else S d'.

Lemma crps_add_spec m S d e : crps_hold m S ->
  exists c, crp_incorporate (default crp_new (m !! d)) (Z.of_nat (size (crp_assignments (default crp_new (m !! d))))) e = Ok c /\
    crps_hold (<[d := c]> m) (seat_in S d (Z.of_nat (size (S d))) e) /\ S d !! Z.of_nat (size (S d)) = None.
Proof.
  intros H. destruct (H d) as [Hd Hi]. rewrite (hs_assign _ _ Hd).
  assert (S d !! Z.of_nat (size (S d)) = None) as Hn.
  { apply eq_None_not_Some. rewrite Hi. lia. }
  destruct (holds_incorporate _ _ _ e Hd Hn) as (c & Hc & Hh & _). exists c. split; [done|]. split; [|done].
  intros d'. unfold seat_in. destruct (decide (d' = d)) as [->|Hne].
  - rewrite lookup_insert. cbn. split; [done|]. intros i. rewrite map_size_insert_None by done.
    destruct (decide (i = Z.of_nat (size (S d)))) as [->|Hni]; [rewrite lookup_insert; split; [lia|by eexists]|].
    rewrite lookup_insert_ne, Hi by done. lia.
  - rewrite lookup_insert_ne by done. apply H.
Qed.
Lemma seat_in_count S d e d' e' : S d !! Z.of_nat (size (S d)) = None ->
  size (customers_at (seat_in S d (Z.of_nat (size (S d))) e d') e') = size (customers_at (S d') e') + (if decide ((d', e') = (d, e)) then 1 else 0).
Proof.
  intros Hn. unfold seat_in. destruct (decide (d' = d)) as [->|Hne]; [|rewrite decide_False by congruence; lia].
  destruct (decide (e' = e)) as [->|Hne].
  - rewrite decide_True by done. assert (customers_at (<[Z.of_nat (size (S d)) := e]> (S d)) e = {[Z.of_nat (size (S d))]} ∪ customers_at (S d) e) as ->.
    { apply set_eq. intros i. rewrite elem_of_union, elem_of_singleton, !elem_of_customers_at. destruct (decide (i = Z.of_nat (size (S d)))) as [->|Hi].
      - rewrite lookup_insert. naive_solver.
      - rewrite lookup_insert_ne by done. naive_solver. }
    rewrite size_union, size_singleton; [lia|]. intros i Hi Hc. apply elem_of_singleton in Hi as ->. apply elem_of_customers_at in Hc. congruence.
  - rewrite decide_False by congruence. rewrite Nat.add_0_r. f_equal. apply set_eq. intros i. rewrite !elem_of_customers_at.
    destruct (decide (i = Z.of_nat (size (S d)))) as [->|Hi]; [rewrite lookup_insert, Hn|rewrite lookup_insert_ne by done]; naive_solver.
Qed.

(** ** The initial popularity *)
Definition seats (m : gmap string crp) (f : string -> Z -> nat) : Prop :=
  exists S, crps_hold m S /\ forall d e, size (customers_at (S d) e) = f d e.
Lemma popular_ext m f g : (forall d e, f d e = g d e) -> seats m f -> seats m g.
Proof. intros H (S & HS & Hf). exists S. split; [done|]. intros. by rewrite Hf. Qed.
Lemma popular_empty : seats ∅ (fun _ _ => 0).
Proof.
  exists (fun _ => ∅). split.
  - intros d. rewrite lookup_empty. cbn. split; [apply holds_new|]. intros i. rewrite lookup_empty, map_size_empty. split; [by intros [? ?]|lia].
  - intros d e. assert (customers_at ∅ e = ∅) as ->; [|apply size_empty]. apply set_eq. intros i. rewrite elem_of_customers_at, lookup_empty. set_solver.
Qed.
Lemma popular_add m f d e : seats m f -> exists m', crps_add m d e = Ok m' /\ seats m' (fun d' e' => f d' e' + if decide ((d', e') = (d, e)) then 1 else 0).
Proof.
  intros (S & HS & Hf). destruct (crps_add_spec m S d e HS) as (c & Hc & Hh & Hn). exists (<[d := c]> m). unfold crps_add. rewrite Hc. split; [done|].
  eexists. split; [exact Hh|]. intros d' e'. by rewrite seat_in_count, Hf.
Qed.
Lemma popular_entities d es : NoDup es -> forall m f, seats m f -> exists m', foldM (fun m e => crps_add m d e) m es = Ok m' /\
  seats m' (fun d' e' => f d' e' + if decide (d' = d /\ e' ∈ es) then 1 else 0).
Proof.
  induction 1 as [|e es He Hes IH]; intros m f Hp; cbn [foldM].
  { exists m. split; [done|]. eapply popular_ext; [|done]. intros d' e'. cbn. rewrite decide_False; [lia|]. intros [_ H]. by apply elem_of_nil in H. }
  destruct (popular_add m f d e Hp) as (m1 & -> & Hp1). cbn [obind]. destruct (IH _ _ Hp1) as (m2 & -> & Hp2). exists m2. split; [done|].
  eapply popular_ext; [|exact Hp2]. intros d' e'. cbn beta. rewrite <- Nat.add_assoc. f_equal.
  destruct (decide ((d', e') = (d, e))) as [[= -> ->]|Hne].
  - rewrite decide_False by (intros [_ ?]; done). rewrite decide_True by (split; [done|left]). done.
  - destruct (decide (d' = d /\ e' ∈ es)) as [[-> Hi]|Hi]; [rewrite decide_True by (split; [done|by right]); done|].
    rewrite decide_False; [done|]. intros [-> [->|?]%elem_of_cons]; [done|by apply Hi].
Qed.

(** ** Drawing the entities of a tuple, and putting them back *)
Lemma times_cons x y l : times x (y :: l) = (if decide (y = x) then 1 else 0) + times x l.
Proof. unfold times. rewrite filter_cons. destruct (decide (y = x)); done. Qed.

Lemma draw_entities_spec ds : forall m S r, crps_hold m S ->
  exists es ps m' r' S', draw_entities m ds r = Ok (es, ps, m', r') /\ length es = length ds /\ crps_hold m' S' /\ NoDup ps /\
    (forall d j, (d, j) ∈ ps -> S d !! j = None) /\
    (forall d j, S' d !! j = if decide ((d, j) ∈ ps) then S' d !! j else S d !! j) /\
    (forall d j, (d, j) ∈ ps -> is_Some (S' d !! j)) /\
    (forall d e, size (customers_at (S' d) e) = size (customers_at (S d) e) + times (d, e) (zip ds es)) /\
    forall P : string -> Z -> Prop, (forall d j e, S d !! j = Some e -> P d e) ->
      (forall d e, (forall j e', S d !! j = Some e' -> (e' < e)%Z) -> P d e) -> Forall2 P ds es /\ forall d j e, S' d !! j = Some e -> P d e.
Proof.
  induction ds as [|d ds IH]; intros m S r H; cbn [draw_entities].
  { exists [], [], m, r, S. split; [done|]. split; [done|]. split; [done|]. split; [apply NoDup_nil_2|].
    split; [intros d j Hin; by apply not_elem_of_nil in Hin|]. split; [intros d j; by destruct (decide _)|].
    split; [intros d j Hin; by apply not_elem_of_nil in Hin|]. split; [intros d e; unfold times; cbn; lia|]. intros P HP _. split; [apply Forall2_nil_2|done]. }
  destruct (crp_sample_spec _ _ r (proj1 (H d))) as (e & r1 & w & -> & Hw & Hwe). cbn [obind].
  destruct (crps_add_spec m S d e H) as (c & -> & Hc & Hn). cbn [obind].
  destruct (IH _ _ r1 Hc) as (es & ps & m' & r' & S' & -> & Hlen & Hm' & Hnd & Hnew & Heq & Hsome & Hcnt & HP). cbn [obind].
  rewrite (hs_assign _ _ (proj1 (H d))). set (i := Z.of_nat (size (S d))) in *.
  eexists _, _, _, _, S'. split; [done|]. split; [cbn; lia|]. split; [done|].
  assert ((d, i) ∉ ps) as Hni.
  { intros Hin. apply Hnew in Hin. unfold seat_in in Hin. rewrite decide_True, lookup_insert in Hin by done. done. }
  assert (forall d' j, (d', j) <> (d, i) -> seat_in S d i e d' !! j = S d' !! j) as Hse.
  { intros d' j Hne. unfold seat_in. destruct (decide (d' = d)) as [->|]; [|done]. rewrite lookup_insert_ne; [done|]. congruence. }
  assert (seat_in S d i e d !! i = Some e) as Hsi by (unfold seat_in; rewrite decide_True by done; apply lookup_insert).
  split; [by apply NoDup_cons_2|]. split; [|split; [|split; [|split]]].
  - intros d' j [[= -> ->]|Hin]%elem_of_cons; [done|]. rewrite <- Hse; [by apply Hnew|]. intros [= -> ->]. done.
  - intros d' j. destruct (decide ((d', j) ∈ (d, i) :: ps)) as [|Hno]; [done|]. apply not_elem_of_cons in Hno as [Hne Hno].
    rewrite Heq, decide_False by done. by apply Hse.
  - intros d' j [[= -> ->]|Hin]%elem_of_cons; [|by apply Hsome]. rewrite Heq, decide_False, Hsi by done. by eexists.
  - intros d' e'. cbn [zip zip_with]. rewrite times_cons, Hcnt, seat_in_count by done. destruct (decide ((d', e') = (d, e))), (decide ((d, e) = (d', e'))); try congruence; lia.
  - intros P HPin HPfresh. assert (P d e) as Hde.
    { destruct (decide (S d = ∅)) as [Hempty|Hne].
      - apply HPfresh. intros j e'. by rewrite Hempty, lookup_empty.
      - destruct (tables_weights_spec _ _ (proj1 (H d)) Hne) as (w' & tnew & Hw' & Hnew' & Hlt & Hlk). rewrite Hw in Hw'. injection Hw' as <-.
        destruct Hwe as [x Hx]. rewrite Hlk in Hx. destruct (decide (customers_at (S d) e = ∅)) as [He|He].
        + destruct (decide (e = tnew)) as [->|]; [|done]. apply HPfresh. intros j e' Hj. apply Hlt. apply elem_of_customers_at in Hj. set_solver.
        + apply set_choose_L in He as [j Hj]. apply elem_of_customers_at in Hj. eauto. }
    enough (Forall2 P ds es /\ forall d j e, S' d !! j = Some e -> P d e) as [HF ?] by (split; [by apply Forall2_cons|done]). apply HP.
    + intros d' j e' Hj. destruct (decide ((d', j) = (d, i))) as [[= -> ->]|Hne]; [congruence|]. rewrite Hse in Hj by done. eauto.
    + intros d' e' Hbig. apply HPfresh. intros j e'' Hj. apply (Hbig j). rewrite Hse; [done|]. intros [= -> ->]. congruence.
Qed.

Lemma undraw_spec ps : forall m S, NoDup ps -> (forall d, holds_seating (default crp_new (m !! d)) (S d)) -> (forall d j, (d, j) ∈ ps -> is_Some (S d !! j)) ->
  exists m' S', foldM undraw m ps = Ok m' /\ (forall d, holds_seating (default crp_new (m' !! d)) (S' d)) /\
    forall d j, S' d !! j = if decide ((d, j) ∈ ps) then None else S d !! j.
Proof.
  induction ps as [|[d i] ps IH]; intros m S Hnd H Hin; cbn [foldM].
  { exists m, S. split; [done|]. split; [done|]. intros. by rewrite decide_False by apply not_elem_of_nil. }
  apply NoDup_cons in Hnd as [Hni Hnd]. destruct (Hin d i) as [e He]; [left|].
  destruct (holds_unincorporate _ _ _ _ (H d) He) as (c & Hc & Hh & _). assert (undraw m (d, i) = Ok (<[d := c]> m)) as -> by (unfold undraw; cbn [fst snd]; by rewrite Hc). cbn [obind].
  destruct (IH (<[d := c]> m) (fun d' => if decide (d' = d) then delete i (S d) else S d') Hnd) as (m' & S' & -> & Hh' & Heq).
  { intros d'. destruct (decide (d' = d)) as [->|]; [by rewrite lookup_insert|]. rewrite lookup_insert_ne by done. apply H. }
  { intros d' j Hj. destruct (decide (d' = d)) as [->|]; [|apply Hin; by right]. rewrite lookup_delete_ne by (intros ->; done). apply Hin. by right. }
  exists m', S'. split; [done|]. split; [done|]. intros d' j. rewrite Heq.
  destruct (decide ((d', j) ∈ ps)) as [Hp|Hp]; [by rewrite decide_True by (by right)|].
  destruct (decide (d' = d)) as [->|Hd]; [|rewrite decide_False; [done|]; intros [[= -> ->]|?]%elem_of_cons; done].
  destruct (decide (j = i)) as [->|Hj]; [rewrite lookup_delete, decide_True by left; done|].
  rewrite lookup_delete_ne, decide_False by (done || (intros [[= ->]|?]%elem_of_cons; done)). done.
Qed.

(** A tuple that is put back leaves the popularity unchanged. *)
Lemma draw_undraw ds m S r es ps m' r' : crps_hold m S -> draw_entities m ds r = Ok (es, ps, m', r') ->
  exists m'' S'', foldM undraw m' ps = Ok m'' /\ crps_hold m'' S'' /\ forall d, S'' d = S d.
Proof.
  intros H Hd. destruct (draw_entities_spec ds m S r H) as (es0 & ps0 & m0 & r0 & S' & Hd' & _ & Hm' & Hnd & Hnew & Heq & Hsome & _).
  rewrite Hd in Hd'. injection Hd' as <- <- <- <-.
  destruct (undraw_spec ps m' S' Hnd) as (m'' & S'' & Hu & Hh & Hlk); [intros d; apply Hm'|done|].
  assert (forall d, S'' d = S d) as He.
  { intros d. apply map_eq. intros j. rewrite Hlk. destruct (decide ((d, j) ∈ ps)) as [Hp|Hp]; [by rewrite Hnew|]. by rewrite Heq, decide_False. }
  exists m'', S''. split; [done|]. split; [|done]. intros d. split; [apply Hh|]. rewrite He. apply H.
Qed.

(** Every seated entity satisfies [P], and so does every entity larger than all seated ones. *)
Definition seats_all (P : string -> Z -> Prop) (m : gmap string crp) : Prop :=
  exists S, crps_hold m S /\ (forall d j e, S d !! j = Some e -> P d e) /\ forall d e, (forall j e', S d !! j = Some e' -> (e' < e)%Z) -> P d e.
Lemma draw_seats_all P m ds r es ps m' r' : seats_all P m -> draw_entities m ds r = Ok (es, ps, m', r') ->
  length es = length ds /\ Forall2 P ds es /\ seats_all P m' /\ forall m'', foldM undraw m' ps = Ok m'' -> seats_all P m''.
Proof.
  intros (S & HS & H1 & H2) Hd. pose proof (draw_undraw _ _ _ _ _ _ _ _ HS Hd) as (m2 & S2 & Hu & HS2 & He2).
  destruct (draw_entities_spec ds m S r HS) as (es0 & ps0 & m0 & r0 & S' & Hd' & Hlen & Hm' & Hnd & Hnew & Heq & Hsome & _ & HP).
  rewrite Hd in Hd'. injection Hd' as <- <- <- <-. destruct (HP P H1 H2) as [HF HS']. split; [done|]. split; [done|]. split.
  - exists S'. split; [done|]. split; [done|]. intros d e Hbig. apply H2. intros j e' Hj. apply (Hbig j).
    rewrite Heq. destruct (decide ((d, j) ∈ ps)) as [Hin|]; [|done]. by rewrite (Hnew _ _ Hin) in Hj.
  - intros m'' Hm''. rewrite Hu in Hm''. injection Hm'' as <-. exists S2. split; [done|]. split.
    + intros d j e. rewrite He2. apply H1.
    + intros d e Hb. apply H2. intros j e' Hj. apply (Hb j). by rewrite He2.
Qed.

Section Init.
Context {V : Type}.
Implicit Types h : hirm V.

Lemma popular_domains o (ir : irm V) ds : orders_ok o -> NoDup ds -> (forall d, d ∈ ds -> is_Some (i_domains ir !! d)) -> forall m f, seats m f -> exists m',
  foldM (fun m d => let* dm := at_ (i_domains ir !! d) in foldM (fun m e => crps_add m d e) m (o_ents o (dom (crp_assignments (dom_crp dm))))) m ds = Ok m' /\
  seats m' (fun d' e' => f d' e' + if decide (d' ∈ ds /\ irm_has ir d' e') then 1 else 0).
Proof.
  intros Ho. induction 1 as [|d ds Hd Hds IH]; intros Hin m f Hp; cbn [foldM].
  { exists m. split; [done|]. eapply popular_ext; [|done]. intros d' e'. cbn. rewrite decide_False; [lia|]. intros [H _]. by apply elem_of_nil in H. }
  destruct (Hin d) as [dm Hdm]; [left|]. rewrite Hdm. cbn [at_ obind].
  set (es := o_ents o (dom (crp_assignments (dom_crp dm)))).
  assert (es ≡ₚ elements (dom (crp_assignments (dom_crp dm)))) as HP by apply Ho.
  destruct (popular_entities d es) with (m := m) (f := f) as (m1 & -> & Hp1); [rewrite HP; apply NoDup_elements|done|]. cbn [obind].
  destruct (IH ltac:(intros d' Hd'; apply Hin; by right) _ _ Hp1) as (m2 & -> & Hp2). exists m2. split; [done|].
  eapply popular_ext; [|exact Hp2]. intros d' e'. cbn beta. rewrite <- Nat.add_assoc. f_equal.
  assert (e' ∈ es <-> irm_has ir d e') as Hes.
  { rewrite HP, elem_of_elements. split; [intros H; by exists dm|]. intros (dm' & E & H). congruence. }
  destruct (decide (d' = d)) as [->|Hne].
  - rewrite (decide_False (P := d ∈ ds /\ irm_has ir d e')) by (intros [? _]; done). rewrite Nat.add_0_r.
    destruct (decide (d = d /\ e' ∈ es)) as [[_ Hi]|Hi]; [rewrite decide_True; [done|]; split; [left|by apply Hes]|].
    rewrite decide_False; [done|]. intros [_ Hi2]. apply Hi. split; [done|by apply Hes].
  - rewrite (decide_False (P := d' = d /\ e' ∈ es)) by (intros [? _]; done). cbn [plus].
    destruct (decide (d' ∈ ds /\ irm_has ir d' e')) as [[Hi1 Hi2]|Hi]; [rewrite decide_True; [done|]; split; [by right|done]|].
    rewrite decide_False; [done|]. intros [[->|Hi1]%elem_of_cons Hi2]; [done|]. by apply Hi.
Qed.
Lemma filter_ext_in {A} (P Q : A -> Prop) `{!forall x, Decision (P x), !forall x, Decision (Q x)} (l : list A) :
  (forall x, x ∈ l -> P x <-> Q x) -> filter P l = filter Q l.
Proof.
  induction l as [|a l IH]; intros Hl; [done|]. rewrite !filter_cons, IH by (intros x Hx; apply Hl; by right).
  destruct (decide (P a)) as [Hp|Hp]; destruct (decide (Q a)) as [Hq|Hq]; try done; exfalso; pose proof (Hl a ltac:(left)) as Ha; naive_solver.
Qed.

Lemma popular_irms o h ts : orders_ok o -> NoDup ts -> (forall t, t ∈ ts -> is_Some (h_irms h !! t)) -> forall m f, seats m f -> exists m',
  foldM (fun m t =>
    let* ir := at_ (h_irms h !! t) in
    foldM (fun m d =>
      let* dm := at_ (i_domains ir !! d) in
      foldM (fun m e => crps_add m d e) m (o_ents o (dom (crp_assignments (dom_crp dm)))))
      m (o_names o (dom (i_domains ir)))) m ts = Ok m' /\
  seats m' (fun d e => f d e + length (filter (fun p : Z * irm V => p.1 ∈ ts /\ irm_has p.2 d e) (map_to_list (h_irms h)))).
Proof.
  intros Ho. induction 1 as [|t ts Ht Hts IH]; intros Hin m f Hp; cbn [foldM].
  { exists m. split; [done|]. eapply popular_ext; [|done]. intros d e. cbn beta.
    assert (filter (fun p : Z * irm V => p.1 ∈ [] /\ irm_has p.2 d e) (map_to_list (h_irms h)) = []) as ->; [|cbn; lia].
    induction (map_to_list (h_irms h)) as [|p l IH]; [done|]. rewrite filter_cons, decide_False; [done|]. intros [H _]. by apply elem_of_nil in H. }
  destruct (Hin t) as [ir Hir]; [left|]. rewrite Hir. cbn [at_ obind].
  set (ds := o_names o (dom (i_domains ir))). assert (ds ≡ₚ elements (dom (i_domains ir))) as HP by apply Ho.
  destruct (popular_domains o ir ds Ho) with (m := m) (f := f) as (m1 & -> & Hp1); [rewrite HP; apply NoDup_elements| |done|].
  { intros d Hd. rewrite HP, elem_of_elements in Hd. by apply elem_of_dom. }
  cbn [obind]. destruct (IH ltac:(intros t' Ht'; apply Hin; by right) _ _ Hp1) as (m2 & -> & Hp2). exists m2. split; [done|].
  eapply popular_ext; [|exact Hp2]. intros d e. cbn beta. rewrite <- Nat.add_assoc. f_equal.
  assert ((if decide (d ∈ ds /\ irm_has ir d e) then 1 else 0) = if decide (irm_has ir d e) then 1 else 0) as ->.
  { destruct (decide (irm_has ir d e)) as [Hi|Hi]; [rewrite decide_True; [done|]|rewrite decide_False; [done|]; by intros [_ ?]].
    split; [|done]. rewrite HP, elem_of_elements. destruct Hi as (dm & Hdm & _). apply elem_of_dom. by eexists. }
  (* split off the entry of [t] *)
  rewrite <- (insert_delete (h_irms h) t ir Hir).
  assert (map_to_list (<[t := ir]> (delete t (h_irms h))) ≡ₚ (t, ir) :: map_to_list (delete t (h_irms h))) as HPm by (apply map_to_list_insert, lookup_delete).
  rewrite !HPm, !filter_cons. cbn [fst snd].
  rewrite (decide_False (P := t ∈ ts /\ irm_has ir d e)) by (intros [? _]; done).
  assert (filter (fun p : Z * irm V => p.1 ∈ t :: ts /\ irm_has p.2 d e) (map_to_list (delete t (h_irms h))) =
          filter (fun p : Z * irm V => p.1 ∈ ts /\ irm_has p.2 d e) (map_to_list (delete t (h_irms h)))) as ->.
  { apply filter_ext_in. intros [t' ir'] Hin'. cbn [fst snd]. rewrite elem_of_cons.
    assert (t' <> t); [|naive_solver]. intros ->. apply elem_of_map_to_list in Hin'. by rewrite lookup_delete in Hin'. }
  destruct (decide (irm_has ir d e)) as [Hi|Hi].
  - rewrite decide_True by (split; [left|done]). cbn [length]. lia.
  - rewrite decide_False by (by intros [_ ?]). lia.
Qed.

Theorem initialize_popular o h : orders_ok o -> exists m, initialize_domain_crps o h = Ok m /\ seats m (clusters_with h).
Proof.
  intros Ho. unfold initialize_domain_crps.
  assert (o_ents o (dom (h_irms h)) ≡ₚ elements (dom (h_irms h))) as HP by apply Ho.
  destruct (popular_irms o h (o_ents o (dom (h_irms h))) Ho) with (m := (∅ : gmap string crp)) (f := fun (_ : string) (_ : Z) => 0) as (m & Hm & Hp).
  { rewrite HP. apply NoDup_elements. }
  { intros t Ht. rewrite HP, elem_of_elements in Ht. by apply elem_of_dom. }
  { apply popular_empty. }
  exists m. split; [exact Hm|]. eapply popular_ext; [|exact Hp]. intros d e. cbn. unfold clusters_with. f_equal.
  apply filter_ext_in. intros [t ir] Hin. cbn [fst snd]. rewrite HP, elem_of_elements. apply elem_of_map_to_list in Hin.
  split; [by intros [_ ?]|]. intros H. split; [apply elem_of_dom; by eexists|done].
Qed.
End Init.
