From stdpp Require Import gmap strings list sorting relations.
From Coq Require Import Lia.
From Verif Require Import M_base M_irm M_pclean_io M_gendb S_gendb P_base P_irm_schema.

(** * The reference fields of a class *)
Definition field_at (cl : pclass) (v : string) : option (string * string) :=
  match cl !! v with Some (PClassVar k) => Some (v, k) | _ => None end.
Definition fields_of (cl : pclass) : list (string * string) := omap (field_at cl) (sorted_names cl).

Lemma elem_of_sorted_names {A} (m : gmap string A) n : n ∈ sorted_names m <-> is_Some (m !! n).
Proof. unfold sorted_names. rewrite merge_sort_Permutation, elem_of_elements. apply elem_of_dom. Qed.
Lemma NoDup_sorted_names {A} (m : gmap string A) : NoDup (sorted_names m).
Proof. unfold sorted_names. rewrite merge_sort_Permutation. apply NoDup_elements. Qed.
Lemma sorted_sorted_names {A} (m : gmap string A) : StronglySorted str_le (sorted_names m).
Proof. apply (StronglySorted_merge_sort _). Qed.

Lemma field_at_Some cl v f k : field_at cl v = Some (f, k) <-> f = v /\ cl !! v = Some (PClassVar k).
Proof. unfold field_at. destruct (cl !! v) as [[|]|]; naive_solver. Qed.

Lemma omap_fst_sublist cl l : (omap (field_at cl) l).*1 `sublist_of` l.
Proof.
  induction l as [|v l IH]; cbn; [constructor|].
  destruct (field_at cl v) as [[f k]|] eqn:E; cbn; [|by constructor].
  apply field_at_Some in E as [-> _]. by constructor.
Qed.
Lemma sublist_sorted {A} (R : relation A) (l l' : list A) : l `sublist_of` l' -> StronglySorted R l' -> StronglySorted R l.
Proof.
  induction 1 as [|x l l' H IH|x l l' H IH]; intros Hs; [constructor| |].
  - apply StronglySorted_inv in Hs as [Hs Hf]. constructor; [auto|].
    rewrite Forall_forall in Hf |- *. intros y Hy. apply Hf.
    rewrite elem_of_list_In in Hy |- *. revert Hy. clear -H. induction H; cbn; naive_solver.
  - apply StronglySorted_inv in Hs as [Hs Hf]. auto.
Qed.
Lemma sublist_nodup {A} (l l' : list A) : l `sublist_of` l' -> NoDup l' -> NoDup l.
Proof.
  induction 1 as [|x l l' H IH|x l l' H IH]; intros Hs; [constructor| |]; apply NoDup_cons in Hs as [Hx Hs]; [|auto].
  constructor; [|auto]. intros Hy. apply Hx. clear -H Hy. induction H; set_solver.
Qed.
Lemma fields_of_spec cl : reference_fields cl (fields_of cl).
Proof.
  split_and!.
  - eapply sublist_sorted; [apply omap_fst_sublist|apply sorted_sorted_names].
  - eapply sublist_nodup; [apply omap_fst_sublist|apply NoDup_sorted_names].
  - intros f k. unfold fields_of. rewrite elem_of_list_omap. split.
    + intros (v & _ & [-> H]%field_at_Some). done.
    + intros H. exists f. split; [apply elem_of_sorted_names; eauto|]. by apply field_at_Some.
Qed.
Lemma fst_inj_perm (l l' : list (string * string)) : NoDup l.*1 -> NoDup l'.*1 -> (forall x, x ∈ l <-> x ∈ l') -> l ≡ₚ l'.
Proof. intros H H' Hx. apply NoDup_Permutation; [by eapply NoDup_fmap_1..|done]. Qed.
Global Instance str_le_antisymm : AntiSymm eq str_le.
Proof. intros a b. unfold str_le. apply String.leb_antisym. Qed.
Lemma reference_fields_unique cl fks : reference_fields cl fks -> fks = fields_of cl.
Proof.
  intros (Hs & Hnd & Hi). destruct (fields_of_spec cl) as (Hs' & Hnd' & Hi').
  assert (fks.*1 = (fields_of cl).*1) as Hf.
  { eapply (StronglySorted_unique str_le); [done|done|].
    apply fmap_Permutation, fst_inj_perm; [done..|]. intros [f k]. by rewrite Hi, Hi'. }
  apply list_eq. intros i.
  assert (fks.*1 !! i = (fields_of cl).*1 !! i) as E by by rewrite Hf.
  rewrite !list_lookup_fmap in E.
  destruct (fks !! i) as [[f k]|] eqn:E1, (fields_of cl !! i) as [[f' k']|] eqn:E2; cbn in E; simplify_eq; [|done].
  apply elem_of_list_lookup_2 in E1, E2. apply Hi in E1. apply Hi' in E2. congruence.
Qed.

Lemma foldM_omap {A B S} (g : A -> option B) (f : S -> B -> outcome S) (f' : S -> A -> outcome S) l s :
  (forall s a, f' s a = match g a with Some b => f s b | None => Ok s end) -> foldM f' s l = foldM f s (omap g l).
Proof.
  intros H. revert s. induction l as [|a l IH]; intros s; cbn; [done|].
  rewrite H. destruct (g a); cbn; [|apply IH]. destruct (f s b); cbn; auto.
Qed.

Lemma fields_refers cs c cl f k : cs !! c = Some cl -> (f, k) ∈ fields_of cl <-> refers cs c f k.
Proof.
  intros E. destruct (fields_of_spec cl) as (_ & _ & H). rewrite H. unfold refers. naive_solver.
Qed.

(** * Domain lists *)
Section Domains.
Context (cs : gmap string pclass).

Inductive domain_list : string -> list string -> Prop :=
| DL c cl ds : cs !! c = Some cl -> field_lists (fields_of cl) ds -> domain_list c (ds ++ [c])
with field_lists : list (string * string) -> list string -> Prop :=
| FL_nil : field_lists [] []
| FL_cons f k fks d ds : domain_list k d -> field_lists fks ds -> field_lists ((f, k) :: fks) (d ++ ds).
Scheme domain_list_ind2 := Induction for domain_list Sort Prop
with field_lists_ind2 := Induction for field_lists Sort Prop.
Combined Scheme domain_lists_ind from domain_list_ind2, field_lists_ind2.

Lemma domain_lists_det : (forall c ds, domain_list c ds -> forall ds', domain_list c ds' -> ds' = ds) /\
  (forall fks ds, field_lists fks ds -> forall ds', field_lists fks ds' -> ds' = ds).
Proof.
  apply domain_lists_ind.
  - intros c cl ds Hc _ IH ds' H. inversion H as [c' cl' ds1 Hc' Hl]; subst. simplify_eq. by rewrite (IH _ Hl).
  - intros ds' H. by inversion H.
  - intros f k fks d ds _ IH1 _ IH2 ds' H. inversion H as [|f' k' fks' d' ds1 H1 H2]; subst. by rewrite (IH1 _ H1), (IH2 _ H2).
Qed.
Lemma domain_list_det c ds ds' : domain_list c ds -> domain_list c ds' -> ds' = ds.
Proof. intros H. by apply (proj1 domain_lists_det). Qed.
Lemma field_lists_snoc fks ds f k d : field_lists fks ds -> domain_list k d -> field_lists (fks ++ [(f, k)]) (ds ++ d).
Proof.
  intros H Hd. induction H; cbn.
  - rewrite <- (app_nil_r d). repeat constructor; done.
  - rewrite <- app_assoc. by constructor.
Qed.
Lemma domain_list_acc : (forall c ds, domain_list c ds -> Acc (fun k c => references cs c k) c) /\
  (forall fks ds, field_lists fks ds -> forall f k, (f, k) ∈ fks -> Acc (fun k c => references cs c k) k).
Proof.
  apply domain_lists_ind.
  - intros c cl ds Hc _ IH. constructor. intros k [f H]. eapply IH. by eapply fields_refers.
  - intros f k H. by apply elem_of_nil in H.
  - intros f k fks d ds _ IH1 _ IH2 g q [[= -> ->]|H]%elem_of_cons; eauto.
Qed.

Definition dom_inv (dm : gmap string (list string)) : Prop := forall c ds, dm !! c = Some ds -> domain_list c ds.
Definition dom_field (rec : gmap string (list string) -> string -> outcome (gmap string (list string)))
    (st : list string * gmap string (list string)) (fk : string * string) : outcome (list string * gmap string (list string)) :=
  let '(ds, dm) := st in
  let* dm := if bool_decide (fk.2 ∈ dom dm) then Ok dm else rec dm fk.2 in
  Ok (ds ++ default [] (dm !! fk.2), dm).
Lemma domains_loop rec cl st : foldM (domains_step rec cl) st (sorted_names cl) = foldM (dom_field rec) st (fields_of cl).
Proof.
  apply foldM_omap. intros [ds dm] v. unfold domains_step, field_at, dom_field. by destruct (cl !! v) as [[|]|].
Qed.

Lemma dom_field_loop rec (Hrec : forall dm k dm', dom_inv dm -> rec dm k = Ok dm' -> dom_inv dm' /\ dom dm ⊆ dom dm' /\ k ∈ dom dm') :
  forall fks done ds dm ds' dm', dom_inv dm -> field_lists done ds -> foldM (dom_field rec) (ds, dm) fks = Ok (ds', dm') ->
  dom_inv dm' /\ dom dm ⊆ dom dm' /\ field_lists (done ++ fks) ds'.
Proof.
  induction fks as [|[f k] fks IH]; intros dn ds dm ds' dm' Hinv Hd H; cbn -[elem_of] in H.
  - inv_ok H. by rewrite app_nil_r.
  - apply obind_Ok in H as ([ds1 dm1] & Hs & H). unfold dom_field in Hs. cbn -[elem_of] in Hs.
    apply obind_Ok in Hs as (dm2 & Hr & Hs).
    assert (dom_inv dm2 /\ dom dm ⊆ dom dm2 /\ k ∈ dom dm2) as (Hi2 & Hsub & Hk).
    { case_bool_decide as E; [injection Hr as ->; done|]. by eapply Hrec. }
    injection Hs as <- <-.
    apply elem_of_dom in Hk as [d Hk]. rewrite Hk in H. cbn in H.
    edestruct (IH (dn ++ [(f, k)])) as (H1 & H2 & H3); [exact Hi2| |exact H|].
    + apply field_lists_snoc; auto.
    + split_and!; [done|set_solver|]. by rewrite <- app_assoc in H3.
Qed.

Lemma compute_domains_for_sound fuel : forall dm name dm', dom_inv dm -> compute_domains_for fuel cs dm name = Ok dm' ->
  dom_inv dm' /\ dom dm ⊆ dom dm' /\ name ∈ dom dm'.
Proof.
  induction fuel as [|fuel IH]; intros dm name dm' Hinv H; cbn [compute_domains_for] in H; [done|].
  apply obind_Ok in H as (_ & _ & H). apply obind_Ok in H as (cl & Hcl & H). apply at_Ok in Hcl.
  apply obind_Ok in H as ([ds dm1] & Hl & H). rewrite domains_loop in Hl. injection H as <-.
  eapply (dom_field_loop _ IH _ []) in Hl as (Hi & Hsub & Hf); [|done|constructor]. cbn in Hf.
  split_and!; [|rewrite dom_insert_L; set_solver..].
  intros c ds' [[<- <-]|[_ H]]%lookup_insert_Some; [by econstructor|eauto].
Qed.

(** Enough fuel. *)
Lemma dom_field_enough (fks : list (string * string)) :
  (forall f k, (f, k) ∈ fks -> exists n, forall fuel dm, n <= fuel -> dom_inv dm -> exists dm', compute_domains_for fuel cs dm k = Ok dm') ->
  exists n, forall fuel ds dm, n <= fuel -> dom_inv dm -> exists st, foldM (dom_field (compute_domains_for fuel cs)) (ds, dm) fks = Ok st.
Proof.
  induction fks as [|[f k] fks IH]; intros Hk.
  - exists 0. intros fuel ds dm _ _. eauto.
  - destruct IH as [n1 H1]; [intros; eapply Hk; by right|].
    destruct (Hk f k) as [n2 H2]; [by left|].
    exists (n1 + n2). intros fuel ds dm Hf Hinv. cbn -[elem_of].
    assert (exists dm1, (if bool_decide (k ∈ dom dm) then Ok dm else compute_domains_for fuel cs dm k) = Ok dm1 /\ dom_inv dm1) as (dm1 & -> & Hi).
    { case_bool_decide; [by eauto|]. destruct (H2 fuel dm) as [dm1 E]; [lia|done|].
      exists dm1. split; [done|]. by eapply compute_domains_for_sound. }
    cbn. apply H1; [lia|done].
Qed.
Lemma compute_domains_for_enough c : closed_schema cs -> is_Some (cs !! c) -> Acc (fun k c => references cs c k) c ->
  exists n, forall fuel dm, n <= fuel -> dom_inv dm -> exists dm', compute_domains_for fuel cs dm c = Ok dm'.
Proof.
  intros Hcl Hc Hacc. induction Hacc as [c _ IH]. destruct Hc as [cl Hc].
  destruct (dom_field_enough (fields_of cl)) as [n Hn].
  { intros f k Hf. apply (fields_refers cs c) in Hf; [|done]. apply IH; [by exists f|by eapply Hcl]. }
  exists (S n). intros [|fuel] dm Hfu Hinv; [lia|]. cbn [compute_domains_for].
  rewrite bool_decide_true by (apply elem_of_dom; eauto). cbn [obind assert_]. rewrite Hc. cbn [at_ obind].
  rewrite domains_loop. destruct (Hn fuel [] dm) as [[ds dm1] ->]; [lia|done|]. cbn. eauto.
Qed.

Lemma compute_domains_enough : closed_schema cs -> (forall c, is_Some (cs !! c) -> Acc (fun k c => references cs c k) c) ->
  exists n, forall fuel, n <= fuel -> exists dm, compute_domains fuel cs = Ok dm.
Proof.
  intros Hcl Hacc. unfold compute_domains.
  assert (forall l, (forall c, c ∈ l -> is_Some (cs !! c)) -> exists n, forall fuel dm, n <= fuel -> dom_inv dm -> exists dm',
    foldM (fun dm name => if bool_decide (name ∈ dom dm) then Ok dm else compute_domains_for fuel cs dm name) dm l = Ok dm') as Hl.
  { induction l as [|c l IH]; intros Hin.
    - exists 0. intros. by eexists.
    - destruct IH as [n1 H1]; [intros; apply Hin; by right|].
      destruct (compute_domains_for_enough c) as [n2 H2]; [done|apply Hin; by left|apply Hacc, Hin; by left|].
      exists (n1 + n2). intros fuel dm Hf Hinv. cbn -[elem_of].
      case_bool_decide; cbn; [apply H1; [lia|done]|].
      destruct (H2 fuel dm) as [dm1 E]; [lia|done|]. rewrite E. cbn. apply H1; [lia|]. by eapply compute_domains_for_sound. }
  destruct (Hl (sorted_names cs)) as [n Hn]; [intros c; by rewrite elem_of_sorted_names|].
  exists n. intros fuel Hf. apply Hn; [done|]. intros c ds. by rewrite lookup_empty.
Qed.

Lemma compute_domains_sound fuel dm : compute_domains fuel cs = Ok dm ->
  dom_inv dm /\ forall c, is_Some (dm !! c) <-> is_Some (cs !! c).
Proof.
  intros H. unfold compute_domains in H.
  assert (forall l dm0 dm, dom_inv dm0 -> foldM (fun dm name => if bool_decide (name ∈ dom dm) then Ok dm else compute_domains_for fuel cs dm name) dm0 l = Ok dm ->
    dom_inv dm /\ dom dm0 ⊆ dom dm /\ forall c, c ∈ l -> c ∈ dom dm) as Hl.
  { induction l as [|c l IH]; intros dm0 dm1 Hinv Hf; cbn -[elem_of] in Hf.
    - inv_ok Hf. split_and!; [done..|]. intros c Hc. by apply elem_of_nil in Hc.
    - apply obind_Ok in Hf as (dm2 & Hs & Hf).
      assert (dom_inv dm2 /\ dom dm0 ⊆ dom dm2 /\ c ∈ dom dm2) as (Hi & Hsub & Hc).
      { case_bool_decide; [by simplify_eq|]. by eapply compute_domains_for_sound. }
      apply IH in Hf as (H1 & H2 & H3); [|done]. split_and!; [done|set_solver|].
      intros c' [->|?]%elem_of_cons; [by apply H2|auto]. }
  apply Hl in H as (Hi & _ & Hall); [|intros c ds; by rewrite lookup_empty].
  split; [done|]. intros c. split.
  - intros [ds Hd]. apply Hi in Hd. inversion Hd; eauto.
  - intros Hc. apply elem_of_dom, Hall. by apply elem_of_sorted_names.
Qed.
Lemma compute_domains_unique fuel fuel' dm dm' : compute_domains fuel cs = Ok dm -> compute_domains fuel' cs = Ok dm' -> dm = dm'.
Proof.
  intros [H1 H2]%compute_domains_sound [H1' H2']%compute_domains_sound. apply map_eq. intros c.
  destruct (dm !! c) as [ds|] eqn:E, (dm' !! c) as [ds'|] eqn:E'; [|exfalso..|done].
  - f_equal. eapply domain_list_det; eauto.
  - assert (is_Some (dm' !! c)) as [? ?] by (apply H2', H2; eauto). congruence.
  - assert (is_Some (dm !! c)) as [? ?] by (apply H2, H2'; eauto). congruence.
Qed.
Lemma field_lists_concat dm fks ds : dom_inv dm -> (forall f k, (f, k) ∈ fks -> is_Some (dm !! k)) ->
  field_lists fks ds -> ds = concat (map (fun fk => default [] (dm !! fk.2)) fks).
Proof.
  intros Hinv Hk H. induction H as [|f k fks d ds Hd Hf IH]; cbn; [done|].
  destruct (Hk f k) as [d' E]; [by left|]. rewrite E. cbn. rewrite <- IH by (intros; eapply Hk; by right).
  f_equal. eapply domain_list_det; eauto.
Qed.

(** Other outcomes than [Ok] and lack of fuel. *)
Lemma compute_domains_for_out fuel : closed_schema cs -> forall dm c, dom_inv dm -> is_Some (cs !! c) ->
  (exists dm', compute_domains_for fuel cs dm c = Ok dm') \/ compute_domains_for fuel cs dm c = OutOfFuel.
Proof.
  intros Hcl. induction fuel as [|fuel IH]; intros dm c Hinv [cl Hc]; cbn [compute_domains_for]; [by right|].
  rewrite bool_decide_true by (apply elem_of_dom; eauto). cbn [obind assert_]. rewrite Hc. cbn [at_ obind].
  rewrite domains_loop.
  assert (forall fks ds dm, dom_inv dm -> (forall f k, (f, k) ∈ fks -> is_Some (cs !! k)) ->
    (exists st, foldM (dom_field (compute_domains_for fuel cs)) (ds, dm) fks = Ok st) \/
    foldM (dom_field (compute_domains_for fuel cs)) (ds, dm) fks = OutOfFuel) as Hl.
  { induction fks as [|[f k] fks IHf]; intros ds dm0 Hi Hk; cbn -[elem_of]; [by left; eexists|].
    case_bool_decide as E; cbn; [apply IHf; [done|intros; eapply Hk; by right]|].
    destruct (IH dm0 k Hi) as [[dm1 H1]|H1]; [eapply Hk; by left|..]; rewrite H1; cbn; [|by right].
    apply IHf; [by eapply compute_domains_for_sound|intros; eapply Hk; by right]. }
  destruct (Hl (fields_of cl) [] dm) as [[[ds dm1] ->]| ->]; [done| |cbn; eauto|by right].
  intros f k Hf. apply (fields_refers cs c) in Hf; [|done]. by eapply Hcl.
Qed.
Lemma compute_domains_out fuel : closed_schema cs ->
  (exists dm, compute_domains fuel cs = Ok dm) \/ compute_domains fuel cs = OutOfFuel.
Proof.
  intros Hcl. unfold compute_domains.
  assert (forall l dm, dom_inv dm -> (forall c, c ∈ l -> is_Some (cs !! c)) ->
    (exists dm', foldM (fun dm name => if bool_decide (name ∈ dom dm) then Ok dm else compute_domains_for fuel cs dm name) dm l = Ok dm') \/
    foldM (fun dm name => if bool_decide (name ∈ dom dm) then Ok dm else compute_domains_for fuel cs dm name) dm l = OutOfFuel) as Hl.
  { induction l as [|c l IH]; intros dm Hi Hin; cbn -[elem_of]; [by left; eexists|].
    case_bool_decide; cbn; [apply IH; [done|intros; apply Hin; by right]|].
    destruct (compute_domains_for_out fuel Hcl dm c Hi) as [[dm1 H1]|H1]; [apply Hin; by left|..]; rewrite H1; cbn; [|by right].
    apply IH; [by eapply compute_domains_for_sound|intros; apply Hin; by right]. }
  apply Hl; [intros c ds; by rewrite lookup_empty|intros c; by rewrite elem_of_sorted_names].
Qed.
End Domains.

(** * Acyclicity *)
Lemma acyclic_acc cs : acyclic cs -> closed_schema cs -> forall c, Acc (fun k c => references cs c k) c.
Proof.
  intros Ha Hcl c. apply (tc_finite_sn (R:=references cs)); [exact Ha|].
  exists (elements (dom cs)). intros k Hk. apply elem_of_elements, elem_of_dom.
  induction Hk as [x y [f H]|x y z _ _ IH]; [by eapply Hcl|done].
Qed.
Lemma acc_acyclic cs c : Acc (fun k c => references cs c k) c -> ~ tc (references cs) c c.
Proof.
  intros H. induction H as [c _ IH]. intros Hc.
  inversion Hc as [? ? Hr|? y ? Hr Ht]; subst; [by eapply (IH c Hr)|].
  apply (IH y Hr). by eapply tc_r.
Qed.
