From stdpp Require Import gmap strings list sorting relations.
From Coq Require Import Lia.
From Verif Require Import M_base M_irm M_pclean_io M_gendb S_gendb P_base P_irm_schema P_gendb.

(** * Copying the links of a referenced class *)
Lemma copy_fold off (r : links) l : NoDup l -> forall ri acc,
  let st := foldl (copy_position off r) (ri, acc) l in
  (forall p, (forall ind, ind ∈ l -> p <> ind + off) -> st.1 !! p = ri !! p) /\
  (forall ind, ind ∈ l -> exists a, st.1 !! (ind + off) = Some (((fun j => j + off) <$> default ∅ (r !! ind)) ∪ a)).
Proof.
  induction l as [|x l IH]; intros Hnd ri acc; cbn [foldl].
  - split; [done|]. intros ind H. by apply elem_of_nil in H.
  - apply NoDup_cons in Hnd as [Hx Hnd]. unfold copy_position at 2 4.
    destruct (IH Hnd (<[x + off := ((fun j => j + off) <$> default ∅ (r !! x)) ∪ acc]> ri) (((fun j => j + off) <$> default ∅ (r !! x)) ∪ acc)) as [H1 H2].
    split.
    + intros p Hp. rewrite H1 by (intros; apply Hp; by right).
      apply lookup_insert_ne. intros E. eapply Hp; [by left|done].
    + intros ind [->|Hi]%elem_of_cons; [|by apply H2].
      rewrite H1; [rewrite lookup_insert; eauto|]. intros ind Hi E. assert (x = ind) by lia. congruence.
Qed.
Lemma elem_of_sorted_positions {A} (m : gmap nat A) i : i ∈ sorted_positions m <-> is_Some (m !! i).
Proof. unfold sorted_positions. rewrite merge_sort_Permutation, elem_of_elements. apply elem_of_dom. Qed.
Lemma NoDup_sorted_positions {A} (m : gmap nat A) : NoDup (sorted_positions m).
Proof. unfold sorted_positions. rewrite merge_sort_Permutation. apply NoDup_elements. Qed.

Lemma copy_links_low off r ri p : p < off -> copy_links off r ri !! p = ri !! p.
Proof.
  intros Hp. destruct (copy_fold off r _ (NoDup_sorted_positions r) ri ∅) as [H _].
  apply H. intros. lia.
Qed.
Lemma copy_links_dom off r ri p : is_Some (copy_links off r ri !! p) -> is_Some (ri !! p) \/ exists i, p = i + off /\ is_Some (r !! i).
Proof.
  intros Hs. destruct (copy_fold off r _ (NoDup_sorted_positions r) ri ∅) as [H _].
  destruct (decide (Exists (fun i => p = i + off) (sorted_positions r))) as [He|Hn].
  - right. apply Exists_exists in He as (i & Hi & ->). apply elem_of_sorted_positions in Hi. eauto.
  - left. unfold copy_links in Hs. rewrite H in Hs; [done|].
    intros i Hi ->. apply Hn, Exists_exists. eauto.
Qed.
Lemma copy_links_high off r ri i f j : link r i f = Some j -> link (copy_links off r ri) (i + off) f = Some (j + off).
Proof.
  intros Hl. destruct (copy_fold off r _ (NoDup_sorted_positions r) ri ∅) as [_ H].
  unfold link in *. destruct (r !! i) as [m|] eqn:E; cbn in Hl; [|done].
  destruct (H i) as [a Ha]; [apply elem_of_sorted_positions; eauto|].
  unfold copy_links. rewrite Ha, E. cbn. apply lookup_union_Some_l. by rewrite lookup_fmap, Hl.
Qed.
(** With a single position nothing is carried over to a later one. *)
Lemma copy_links_single off r ri i f j : (forall x y, is_Some (r !! x) -> is_Some (r !! y) -> x = y) ->
  (forall p, off <= p -> ri !! p = None) ->
  link (copy_links off r ri) (i + off) f = Some j -> exists j0, link r i f = Some j0.
Proof.
  intros Hone Hri. unfold copy_links.
  pose proof (elem_of_sorted_positions r) as Hel. pose proof (NoDup_sorted_positions r) as Hnd.
  destruct (sorted_positions r) as [|x [|y l]].
  - cbn. unfold link. by rewrite Hri by lia.
  - cbn. unfold link. intros H.
    destruct (decide (i = x)) as [->|Hne].
    + rewrite lookup_insert in H. cbn in H. rewrite map_union_empty in H.
      destruct (r !! x) as [m|]; cbn in *; [|by rewrite fmap_empty, lookup_empty in H].
      rewrite lookup_fmap in H. destruct (m !! f); [eauto|done].
    + rewrite lookup_insert_ne in H by lia. by rewrite Hri in H by lia.
  - exfalso. assert (x = y); [|inversion Hnd; subst; set_solver].
    apply Hone; apply Hel; [by left|by right; left].
Qed.

(** * Forests: the blocks of the fields treated so far *)
Section Forest.
Context (cs : gmap string pclass).

Definition valid (ds : list string) (r : links) (i : nat) (f : string) (j : nat) : Prop :=
  exists k k', ds !! i = Some k /\ refers cs k f k' /\ link r i f = Some j.

Record forest (ds : list string) (ri : links) (own : gmap string nat) (fks : list (string * string)) : Prop := {
  fo_present : forall i k f k', ds !! i = Some k -> refers cs k f k' ->
    exists j, link ri i f = Some j /\ j < i /\ ds !! j = Some k';
  fo_covered : forall j, j < length ds -> (exists i f, valid ds ri i f j) \/ (exists f, own !! f = Some j);
  fo_unique : forall i i' f f' j, valid ds ri i f j -> valid ds ri i' f' j -> i = i' /\ f = f';
  fo_nothing : forall i, is_Some (ri !! i) -> exists k f k', ds !! i = Some k /\ refers cs k f k';
  fo_own : forall f k, (f, k) ∈ fks -> exists j, own !! f = Some j /\ ds !! j = Some k;
  fo_own_inv : forall f j, own !! f = Some j -> j < length ds /\ exists k, (f, k) ∈ fks;
  fo_own_unique : forall f f' j, own !! f = Some j -> own !! f' = Some j -> f = f';
  fo_apart : forall i f f' j, own !! f = Some j -> valid ds ri i f' j -> False;
}.

Lemma refers_fun k f a b : refers cs k f a -> refers cs k f b -> a = b.
Proof. intros (cl & H1 & H2) (cl' & H1' & H2'). simplify_eq. done. Qed.

Lemma valid_lt ds r i f j : (forall i k f k', ds !! i = Some k -> refers cs k f k' ->
    exists j, link r i f = Some j /\ j < i /\ ds !! j = Some k') -> valid ds r i f j -> j < i /\ i < length ds.
Proof.
  intros Hp (k & k' & Hk & Hr & Hl). destruct (Hp _ _ _ _ Hk Hr) as (j' & Hj & Hlt & _). simplify_eq.
  split; [done|]. by eapply lookup_lt_Some.
Qed.

Lemma valid_app ds d ri r i f j :
  (forall i k f k', ds !! i = Some k -> refers cs k f k' -> exists j, link ri i f = Some j /\ j < i /\ ds !! j = Some k') ->
  (forall i k f k', d !! i = Some k -> refers cs k f k' -> exists j, link r i f = Some j /\ j < i /\ d !! j = Some k') ->
  valid (ds ++ d) (copy_links (length ds) r ri) i f j <->
  valid ds ri i f j \/ exists i0 j0, i = i0 + length ds /\ j = j0 + length ds /\ valid d r i0 f j0.
Proof.
  intros Hp1 Hp2. split.
  - intros (k & k' & Hk & Hr & Hl). destruct (decide (i < length ds)) as [Hi|Hi].
    + left. rewrite lookup_app_l in Hk by done. exists k, k'. unfold link in *. by rewrite copy_links_low in Hl.
    + right. rewrite lookup_app_r in Hk by lia. destruct (Hp2 _ _ _ _ Hk Hr) as (j0 & Hj & _).
      exists (i - length ds), j0. split_and!; [lia| |by exists k, k'].
      apply (copy_links_high (length ds) _ ri) in Hj. replace (i - length ds + length ds) with i in Hj by lia. congruence.
  - intros [H|(i0 & j0 & -> & -> & (k & k' & Hk & Hr & Hl))].
    + destruct (valid_lt _ _ _ _ _ Hp1 H) as [_ Hi]. destruct H as (k & k' & Hk & Hr & Hl).
      exists k, k'. split_and!; [by rewrite lookup_app_l|done|]. unfold link. by rewrite copy_links_low.
    + exists k, k'. split_and!; [|done|by apply copy_links_high].
      rewrite lookup_app_r by lia. by replace (i0 + length ds - length ds) with i0 by lia.
Qed.

Lemma forest_add ds ri own fks f k d r : forest ds ri own fks -> links_right cs d r ->
  last d = Some k -> f ∉ fks.*1 ->
  forest (ds ++ d) (copy_links (length ds) r ri) (<[f := length ds + length d - 1]> own) (fks ++ [(f, k)]).
Proof.
  intros F L Hlast Hf. pose proof (fo_present _ _ _ _ F) as HP1. pose proof (lr_present _ _ _ L) as HP2.
  pose proof (fun i f j => valid_app ds d ri r i f j HP1 HP2) as Hva.
  assert (0 < length d) as Hd by (destruct d; [done|cbn; lia]).
  assert (d !! (length d - 1) = Some k) as Hk by (rewrite last_lookup in Hlast; by replace (length d - 1) with (Nat.pred (length d)) by lia).
  split.
  - intros i k0 f0 k' Hi Hr. destruct (decide (i < length ds)) as [Hlt|Hge].
    + rewrite lookup_app_l in Hi by done. destruct (HP1 _ _ _ _ Hi Hr) as (j & Hj & Hji & Hjk).
      exists j. split_and!; [|done|rewrite lookup_app_l by lia; done]. unfold link. by rewrite copy_links_low.
    + rewrite lookup_app_r in Hi by lia. destruct (HP2 _ _ _ _ Hi Hr) as (j & Hj & Hji & Hjk).
      exists (j + length ds). split_and!; [|lia|].
      * apply (copy_links_high (length ds) _ ri) in Hj. by replace (i - length ds + length ds) with i in Hj by lia.
      * rewrite lookup_app_r by lia. by replace (j + length ds - length ds) with j by lia.
  - intros j Hj. rewrite app_length in Hj. destruct (decide (j < length ds)) as [Hlt|Hge].
    + destruct (fo_covered _ _ _ _ F j Hlt) as [(i & f0 & H)|[f0 H]].
      * left. exists i, f0. apply Hva. by left.
      * right. exists f0. rewrite lookup_insert_ne; [done|]. intros ->.
        destruct (fo_own_inv _ _ _ _ F _ _ H) as (_ & k0 & Hk0). apply Hf, elem_of_list_fmap. by exists (f0, k0).
    + destruct (decide (S (j - length ds) < length d)) as [Hlt|Hlast'].
      * destruct (lr_covered _ _ _ L _ Hlt) as (i & k0 & f0 & k' & H1 & H2 & H3).
        left. exists (i + length ds), f0. apply Hva. right. exists i, (j - length ds).
        split_and!; [done|lia|by exists k0, k'].
      * right. exists f. rewrite lookup_insert. f_equal. lia.
  - intros i i' f0 f0' j [H|(i0 & j0 & -> & -> & H)]%Hva [H'|(i0' & j0' & -> & E & H')]%Hva.
    + by eapply fo_unique.
    + apply (valid_lt _ _ _ _ _ HP1) in H. lia.
    + apply (valid_lt _ _ _ _ _ HP1) in H'. lia.
    + assert (j0' = j0) as -> by lia. destruct H as (k1 & k1' & A1 & A2 & A3), H' as (k2 & k2' & B1 & B2 & B3).
      destruct (lr_unique _ _ _ L _ _ _ _ _ _ _ _ _ A1 A2 A3 B1 B2 B3) as [-> ->]. done.
  - intros i [H|(i0 & -> & H)]%copy_links_dom.
    + destruct (fo_nothing _ _ _ _ F _ H) as (k0 & f0 & k' & H1 & H2). exists k0, f0, k'. split; [|done].
      rewrite lookup_app_l; [done|by eapply lookup_lt_Some].
    + destruct (lr_nothing_else _ _ _ L _ H) as (k0 & f0 & k' & H1 & H2). exists k0, f0, k'. split; [|done].
      rewrite lookup_app_r by lia. by replace (i0 + length ds - length ds) with i0 by lia.
  - intros f0 k0 [H|[= -> ->]%elem_of_list_singleton]%elem_of_app.
    + destruct (fo_own _ _ _ _ F _ _ H) as (j & Hj & Hjk). exists j.
      assert (f <> f0) by (intros ->; apply Hf, elem_of_list_fmap; by exists (f0, k0)).
      rewrite lookup_insert_ne by done. split; [done|]. rewrite lookup_app_l; [done|by eapply lookup_lt_Some].
    + exists (length ds + length d - 1). rewrite lookup_insert. split; [done|].
      rewrite lookup_app_r by lia. by replace (length ds + length d - 1 - length ds) with (length d - 1) by lia.
  - intros f0 j [[<- <-]|[Hne H]]%lookup_insert_Some.
    + rewrite app_length. split; [lia|]. exists k. set_solver.
    + destruct (fo_own_inv _ _ _ _ F _ _ H) as (Hj & k0 & Hk0). rewrite app_length. split; [lia|]. exists k0. set_solver.
  - intros f0 f0' j [[<- <-]|[Hne H]]%lookup_insert_Some [[<- E]|[Hne' H']]%lookup_insert_Some; [done| | |by eapply fo_own_unique].
    + destruct (fo_own_inv _ _ _ _ F _ _ H') as (Hj & _). lia.
    + destruct (fo_own_inv _ _ _ _ F _ _ H) as (Hj & _). lia.
  - intros i f0 f0' j [[<- <-]|[Hne H]]%lookup_insert_Some [H'|(i0 & j0 & -> & E & H')]%Hva.
    + apply (valid_lt _ _ _ _ _ HP1) in H'. lia.
    + apply (valid_lt _ _ _ _ _ HP2) in H'. lia.
    + by eapply fo_apart.
    + destruct (fo_own_inv _ _ _ _ F _ _ H) as (Hj & _). lia.
Qed.

Lemma forest_nil : forest [] ∅ ∅ [].
Proof.
  split; intros; try (by apply elem_of_nil in H); try (by rewrite lookup_nil in H); try (by rewrite lookup_empty in H).
  - cbn in H. lia.
  - destruct H as (? & ? & H & _). by rewrite lookup_nil in H.
  - rewrite lookup_empty in H. by destruct H.
Qed.

(** Closing a forest with the class itself. *)
Lemma forest_close c cl ds ri own : cs !! c = Some cl -> forest ds ri own (fields_of cl) -> own <> ∅ ->
  links_right cs (ds ++ [c]) (<[length ds := own]> ri).
Proof.
  intros Hc F Hne. pose proof (fo_present _ _ _ _ F) as HP.
  assert (forall f k', refers cs c f k' <-> (f, k') ∈ fields_of cl) as Hrf by (intros; symmetry; by apply fields_refers).
  assert (forall i, i < length ds -> <[length ds := own]> ri !! i = ri !! i) as Hlow by (intros; apply lookup_insert_ne; lia).
  assert (forall i f j, valid (ds ++ [c]) (<[length ds := own]> ri) i f j -> valid ds ri i f j \/ (i = length ds /\ own !! f = Some j)) as Hva.
  { intros i f j (k & k' & H1 & H2 & H3). destruct (decide (i < length ds)) as [Hi|Hi].
    - left. rewrite lookup_app_l in H1 by done. exists k, k'. unfold link in *. by rewrite Hlow in H3.
    - right. assert (i < length (ds ++ [c])) by by eapply lookup_lt_Some. rewrite app_length in *. cbn in *.
      assert (i = length ds) as -> by lia. split; [done|]. unfold link in H3. by rewrite lookup_insert in H3. }
  split.
  - intros i k f k' Hi Hr. destruct (decide (i < length ds)) as [Hlt|Hge].
    + rewrite lookup_app_l in Hi by done. destruct (HP _ _ _ _ Hi Hr) as (j & Hj & Hji & Hjk).
      exists j. split_and!; [|done|rewrite lookup_app_l by lia; done]. unfold link. by rewrite Hlow.
    + assert (i < length (ds ++ [c])) by by eapply lookup_lt_Some. rewrite app_length in *. cbn in *.
      assert (i = length ds) as -> by lia. rewrite list_lookup_middle in Hi by done. injection Hi as ->.
      apply Hrf in Hr. destruct (fo_own _ _ _ _ F _ _ Hr) as (j & Hj & Hjk).
      exists j. assert (j < length ds) by by eapply lookup_lt_Some.
      split_and!; [|done|by rewrite lookup_app_l]. unfold link. by rewrite lookup_insert.
  - intros j Hj. rewrite app_length in Hj. cbn in Hj.
    destruct (fo_covered _ _ _ _ F j) as [(i & f & H)|[f H]]; [lia| |].
    + destruct (valid_lt _ _ _ _ _ HP H) as [_ Hi]. destruct H as (k & k' & H1 & H2 & H3).
      exists i, k, f, k'. split_and!; [by rewrite lookup_app_l|done|]. unfold link. by rewrite Hlow.
    + destruct (fo_own_inv _ _ _ _ F _ _ H) as (_ & k & Hk). exists (length ds), c, f, k.
      split_and!; [by apply list_lookup_middle|by apply Hrf|]. unfold link. by rewrite lookup_insert.
  - intros i i' k k' f f' q q' j A1 A2 A3 B1 B2 B3.
    destruct (Hva i f j) as [H|[-> H]]; [by exists k, q|..];
    (destruct (Hva i' f' j) as [H'|[-> H']]; [by exists k', q'|..]).
    + by eapply fo_unique.
    + exfalso. by eapply fo_apart.
    + exfalso. by eapply fo_apart.
    + split; [done|]. by eapply fo_own_unique.
  - intros i Hi. destruct (decide (i = length ds)) as [->|Hni].
    + destruct (map_choose own Hne) as (f & j & H). destruct (fo_own_inv _ _ _ _ F _ _ H) as (_ & k & Hk).
      exists c, f, k. split; [by apply list_lookup_middle|by apply Hrf].
    + rewrite lookup_insert_ne in Hi by done. destruct (fo_nothing _ _ _ _ F _ Hi) as (k & f & k' & H1 & H2).
      exists k, f, k'. split; [|done]. rewrite lookup_app_l; [done|by eapply lookup_lt_Some].
Qed.
Lemma leaf_links c cl : cs !! c = Some cl -> fields_of cl = [] -> links_right cs [c] ∅.
Proof.
  intros Hc Hf.
  assert (forall f k, ~ refers cs c f k) as Hno.
  { intros f k H. apply (fields_refers cs c cl) in H; [|done]. rewrite Hf in H. by apply elem_of_nil in H. }
  split.
  - intros i k f k' Hi Hr. destruct i; [|done]. cbn in Hi. simplify_eq. by apply Hno in Hr.
  - cbn. intros. lia.
  - intros ?????????? ? H ? ? ?. unfold link in H. by rewrite lookup_empty in H.
  - intros i [? H]. by rewrite lookup_empty in H.
Qed.

(** Exactness. *)
Definition single (r : links) : Prop := forall x y, is_Some (r !! x) -> is_Some (r !! y) -> x = y.
Lemma exact_add ds ri own fks d r : forest ds ri own fks -> links_exact cs ds ri -> links_exact cs d r -> single r ->
  links_exact cs (ds ++ d) (copy_links (length ds) r ri).
Proof.
  intros F E1 E2 Hs i f j Hl. destruct (decide (i < length ds)) as [Hi|Hi].
  - unfold link in Hl. rewrite copy_links_low in Hl by done.
    destruct (E1 i f j Hl) as (k & k' & Hk & Hr). exists k, k'. split; [by rewrite lookup_app_l|done].
  - replace i with (i - length ds + length ds) in Hl by lia.
    apply copy_links_single in Hl as [j0 Hl]; [|done|].
    + destruct (E2 _ _ _ Hl) as (k & k' & Hk & Hr). exists k, k'. split; [|done]. by rewrite lookup_app_r by lia.
    + intros p Hp. destruct (ri !! p) as [m|] eqn:E; [|done].
      destruct (fo_nothing _ _ _ _ F p) as (k & f' & k' & Hk & _); [eauto|]. apply lookup_lt_Some in Hk. lia.
Qed.
Lemma exact_close c cl ds ri own : cs !! c = Some cl -> forest ds ri own (fields_of cl) -> links_exact cs ds ri ->
  links_exact cs (ds ++ [c]) (<[length ds := own]> ri).
Proof.
  intros Hc F E i f j Hl. unfold link in Hl. destruct (decide (i = length ds)) as [->|Hne].
  - rewrite lookup_insert in Hl. cbn in Hl. destruct (fo_own_inv _ _ _ _ F _ _ Hl) as (_ & k & Hk).
    exists c, k. split; [by apply list_lookup_middle|]. by apply (fields_refers cs c cl).
  - rewrite lookup_insert_ne in Hl by done. destruct (E i f j Hl) as (k & k' & Hk & Hr).
    exists k, k'. split; [|done]. rewrite lookup_app_l; [done|by eapply lookup_lt_Some].
Qed.

Definition leaf (k : string) : Prop := forall f k', ~ refers cs k f k'.
Lemma leaf_list k d : leaf k -> domain_list cs k d -> d = [k].
Proof.
  intros Hl H. inversion H as [c cl ds Hc Hf]; subst.
  destruct (fields_of cl) as [|[f q] fks] eqn:E; [by inversion Hf|].
  exfalso. apply (Hl f q). apply (fields_refers cs k cl); [done|]. rewrite E. left.
Qed.
Lemma single_links k d r : (forall f k', refers cs k f k' -> leaf k') -> domain_list cs k d -> links_right cs d r -> single r.
Proof.
  intros Hl H L.
  assert (forall x, is_Some (r !! x) -> x = length d - 1) as Hx; [|intros x y H1%Hx H2%Hx; lia].
  intros x Hx. destruct (lr_nothing_else _ _ _ L _ Hx) as (q & f & q' & Hq & Hr).
  inversion H as [c cl ds Hc Hf]; subst. rewrite app_length. cbn.
  destruct (decide (x < length ds)) as [Hlt|Hge].
  - exfalso. rewrite lookup_app_l in Hq by done.
    assert (forall g a, (g, a) ∈ fields_of cl -> leaf a) as Hg by (intros g a Hga; eapply Hl; by apply (fields_refers cs k cl)).
    clear -Hf Hq Hr Hg. apply elem_of_list_lookup_2 in Hq. induction Hf as [|g a fks d0 ds Hd _ IH]; [by apply elem_of_nil in Hq|].
    assert (leaf a) as Ha by (eapply Hg; by left). apply leaf_list in Hd as ->; [|done].
    apply elem_of_cons in Hq as [->|Hq]; [by apply (Ha f q')|]. apply IH; [done|]. intros. eapply Hg. by right.
  - apply lookup_lt_Some in Hq. rewrite app_length in Hq. cbn in Hq. lia.
Qed.

(** * The recursion *)
Context (dm : gmap string (list string)) (Hdm : dom_inv cs dm) (Hall : forall c, is_Some (cs !! c) -> is_Some (dm !! c)).

Definition links_inv (cache : gmap string links) : Prop := forall c r, cache !! c = Some r ->
  exists ds, dm !! c = Some ds /\ links_right cs ds r /\ (shallow cs c -> links_exact cs ds r).
(** The class has been treated. *)
Definition treated (cache : gmap string links) (c : string) : Prop := is_Some (cache !! c) \/ leaf c.

Definition refs_field (rec : gmap string links -> string -> outcome (gmap string links)) (st : refs_state) (fk : string * string) : outcome refs_state :=
  let '(v, k) := fk in
  let* cache := if bool_decide (k ∈ dom (rs_cache st)) then Ok (rs_cache st) else rec (rs_cache st) k in
  let* d := at_ (dm !! k) in
  let offset := rs_offset st in
  let total := offset + length d in
  let ri := match cache !! k with
            | Some r => copy_links offset r (rs_links st)
            | None => rs_links st
            end in
  Ok (RefsState total ri (<[v := total - 1]> (rs_own st)) cache).
Lemma refs_loop rec cl st : foldM (refs_step rec dm cl) st (sorted_names cl) = foldM (refs_field rec) st (fields_of cl).
Proof.
  apply foldM_omap. intros s v. unfold refs_step, field_at, refs_field. by destruct (cl !! v) as [[|]|].
Qed.

Lemma copy_links_empty off ri : copy_links off ∅ ri = ri.
Proof. reflexivity. Qed.

(** The links of a treated class, recorded or not. *)
Lemma treated_links cache k : links_inv cache -> treated cache k -> is_Some (cs !! k) -> exists d, dm !! k = Some d /\
  links_right cs d (default ∅ (cache !! k)) /\ (shallow cs k -> links_exact cs d (default ∅ (cache !! k))) /\ last d = Some k.
Proof.
  intros Hi Ht Hk. destruct (Hall k Hk) as [d Hd]. exists d. split; [done|].
  assert (last d = Some k) as Hlast by (apply Hdm in Hd; inversion Hd; by rewrite last_app).
  destruct (cache !! k) as [r|] eqn:E.
  - destruct (Hi _ _ E) as (d' & Hd' & H1 & H2). simplify_eq. done.
  - destruct Ht as [[? Ht]|Hl]; [congruence|]. cbn. apply Hdm in Hd. destruct Hk as [cl Hk].
    pose proof (leaf_list _ _ Hl Hd) as ->. split_and!; [|intros _ i f j H; unfold link in H; by rewrite lookup_empty in H|done].
    eapply leaf_links; [done|]. destruct (fields_of cl) as [|[f q] fks] eqn:Ef; [done|].
    exfalso. apply (Hl f q). apply (fields_refers cs k cl); [done|]. rewrite Ef. left.
Qed.

Lemma refs_field_loop c cl rec (Hrec : forall cache k cache', links_inv cache -> rec cache k = Ok cache' ->
    links_inv cache' /\ dom cache ⊆ dom cache' /\ treated cache' k) :
  closed_schema cs -> cs !! c = Some cl ->
  forall fks dn st ds st', fields_of cl = dn ++ fks -> links_inv (rs_cache st) -> rs_offset st = length ds ->
  field_lists cs dn ds -> forest ds (rs_links st) (rs_own st) dn -> (shallow cs c -> links_exact cs ds (rs_links st)) ->
  foldM (refs_field rec) st fks = Ok st' ->
  exists ds', links_inv (rs_cache st') /\ dom (rs_cache st) ⊆ dom (rs_cache st') /\ rs_offset st' = length ds' /\
    field_lists cs (fields_of cl) ds' /\ forest ds' (rs_links st') (rs_own st') (fields_of cl) /\
    (shallow cs c -> links_exact cs ds' (rs_links st')).
Proof.
  intros Hcl Hc. induction fks as [|[f k] fks IH]; intros dn st ds st' Hdn Hi Ho Hf F He H; cbn -[elem_of] in H.
  - inv_ok H. rewrite Hdn, app_nil_r. exists ds. done.
  - apply obind_Ok in H as (st1 & Hs & H). apply obind_Ok in Hs as (cache & Hr & Hs).
    assert (refers cs c f k) as Href by (apply (fields_refers cs c cl); [done|]; rewrite Hdn; set_solver).
    assert (links_inv cache /\ dom (rs_cache st) ⊆ dom cache /\ treated cache k) as (Hi2 & Hsub & Ht).
    { case_bool_decide as E; [injection Hr as <-; split_and!; [done..|left; by apply elem_of_dom]|]. by eapply Hrec. }
    destruct (treated_links cache k Hi2 Ht (Hcl _ _ _ Href)) as (d & Hd & HL & HE & Hlast).
    rewrite Hd in Hs. cbn [at_ obind] in Hs.
    assert (match cache !! k with Some r => copy_links (rs_offset st) r (rs_links st) | None => rs_links st end =
            copy_links (length ds) (default ∅ (cache !! k)) (rs_links st)) as Eq.
    { rewrite <- Ho. by destruct (cache !! k). }
    rewrite Eq in Hs. injection Hs as <-.
    assert (f ∉ dn.*1) as Hfresh.
    { destruct (fields_of_spec cl) as (_ & Hnd & _). rewrite Hdn in Hnd. rewrite fmap_app in Hnd.
      apply NoDup_app in Hnd as (_ & Hnd & _). intros Hin. apply (Hnd f Hin). left. }
    set (s1 := RefsState _ _ _ _) in H.
    destruct (IH (dn ++ [(f, k)]) s1 (ds ++ d) st') as (ds' & H1 & H2 & H3 & H4 & H5 & H6); [..|exact H|]; cbn.
    + by rewrite <- app_assoc.
    + done.
    + rewrite app_length. lia.
    + apply field_lists_snoc; [done|by apply Hdm].
    + rewrite Ho. by apply forest_add.
    + intros Hsh. eapply exact_add; [done|auto|apply HE|].
      * intros a b e [g Hg] Hb Hb'. eapply Hsh; [by exists f|by exists g|done].
      * eapply single_links; [|by apply Hdm|done]. intros g q Hg f' q' Hq. eapply Hsh; [by exists f|by exists g|by exists f'].
    + exists ds'. split_and!; try done. cbn in H2. set_solver.
Qed.

Lemma compute_refs_for_sound fuel : closed_schema cs -> forall cache name cache', links_inv cache ->
  compute_refs_for fuel cs dm cache name = Ok cache' -> links_inv cache' /\ dom cache ⊆ dom cache' /\ treated cache' name.
Proof.
  intros Hclo. induction fuel as [|fuel IH]; intros cache name cache' Hinv H; cbn [compute_refs_for] in H; [done|].
  apply obind_Ok in H as (_ & _ & H). apply obind_Ok in H as (cl & Hcl & H). apply at_Ok in Hcl.
  apply obind_Ok in H as (st & Hl & H). rewrite refs_loop in Hl.
  destruct (refs_field_loop name cl _ IH Hclo Hcl (fields_of cl) [] (RefsState 0 ∅ ∅ cache) [] st) as (ds & H1 & H2 & H3 & H4 & H5 & H6);
    [done|done|done|apply FL_nil|apply forest_nil|intros _ i f j Hk; unfold link in Hk; cbn [rs_links] in Hk; by rewrite lookup_empty in Hk|done|].
  cbn in H2. case_bool_decide as E; injection H as <-.
  - split_and!; [done..|]. right. intros f k Hr. apply (fields_refers cs name cl) in Hr; [|done].
    destruct (fo_own _ _ _ _ H5 _ _ Hr) as (j & Hj & _). by rewrite E, lookup_empty in Hj.
  - split_and!; [|rewrite dom_insert_L; set_solver|left; rewrite lookup_insert; eauto].
    intros c r [[<- <-]|[_ Hc]]%lookup_insert_Some; [|eauto].
    destruct (Hall name) as [ds' Hds']; [eauto|]. exists ds'.
    assert (ds' = ds ++ [name]) as ->.
    { apply Hdm in Hds'. eapply domain_list_det; [|exact Hds']. by econstructor. }
    split_and!; [done|rewrite H3; by eapply forest_close|]. intros Hs. rewrite H3. eapply exact_close; eauto.
Qed.

Lemma compute_refs_sound fuel cache : closed_schema cs -> compute_refs fuel cs dm = Ok cache ->
  links_inv cache /\ forall c, is_Some (cs !! c) -> treated cache c.
Proof.
  intros Hclo H. unfold compute_refs in H.
  assert (forall l c0 cache, links_inv c0 -> foldM (fun cache name => if bool_decide (name ∈ dom cache) then Ok cache else compute_refs_for fuel cs dm cache name) c0 l = Ok cache ->
    links_inv cache /\ dom c0 ⊆ dom cache /\ forall c, c ∈ l -> treated cache c) as Hl.
  { induction l as [|c l IH]; intros c0 c1 Hinv Hf; cbn -[elem_of] in Hf.
    - inv_ok Hf. split_and!; [done..|]. intros c Hc. by apply elem_of_nil in Hc.
    - apply obind_Ok in Hf as (c2 & Hs & Hf).
      assert (links_inv c2 /\ dom c0 ⊆ dom c2 /\ treated c2 c) as (Hi & Hsub & Hc).
      { case_bool_decide as E; [simplify_eq; split_and!; [done..|left; by apply elem_of_dom]|]. by eapply compute_refs_for_sound. }
      apply IH in Hf as (H1 & H2 & H3); [|done]. split_and!; [done|set_solver|].
      intros c' [->|?]%elem_of_cons; [|auto]. destruct Hc as [Hc|Hc]; [left|by right].
      apply elem_of_dom, H2. by apply elem_of_dom. }
  apply Hl in H as (Hi & _ & Ht); [|intros c r; by rewrite lookup_empty].
  split; [done|]. intros c Hc. apply Ht. by apply elem_of_sorted_names.
Qed.

Lemma compute_refs_for_enough c : closed_schema cs -> is_Some (cs !! c) -> Acc (fun k c => references cs c k) c ->
  exists n, forall fuel cache, n <= fuel -> exists cache', compute_refs_for fuel cs dm cache c = Ok cache'.
Proof.
  intros Hclo Hc Hacc. induction Hacc as [c _ IH]. destruct Hc as [cl Hc].
  assert (forall fks, (forall f k, (f, k) ∈ fks -> refers cs c f k) -> exists n, forall fuel st, n <= fuel ->
    exists st', foldM (refs_field (compute_refs_for fuel cs dm)) st fks = Ok st') as Hl.
  { induction fks as [|[f k] fks IHf]; intros Hk; [exists 0; intros; by eexists|].
    destruct IHf as [n1 H1]; [intros; apply Hk; by right|].
    assert (refers cs c f k) as Hr by (apply Hk; by left).
    destruct (IH k) as [n2 H2]; [by exists f|by eapply Hclo|].
    destruct (Hall k) as [d Hd]; [by eapply Hclo|].
    exists (n1 + n2). intros fuel st Hf. cbn -[elem_of].
    assert (exists ca, (if bool_decide (k ∈ dom (rs_cache st)) then Ok (rs_cache st) else compute_refs_for fuel cs dm (rs_cache st) k) = Ok ca) as [ca ->].
    { case_bool_decide; [eauto|]. apply H2. lia. }
    cbn [obind]. rewrite Hd. cbn [at_ obind]. apply H1. lia. }
  destruct (Hl (fields_of cl)) as [n Hn]; [intros f k; by apply fields_refers|].
  exists (S n). intros [|fuel] cache Hfu; [lia|]. cbn [compute_refs_for].
  rewrite bool_decide_true by (apply elem_of_dom; eauto). cbn [obind assert_]. rewrite Hc. cbn [at_ obind].
  rewrite refs_loop. destruct (Hn fuel (RefsState 0 ∅ ∅ cache)) as [st ->]; [lia|]. cbn [obind]. case_bool_decide; eauto.
Qed.
Lemma compute_refs_enough : closed_schema cs -> (forall c, is_Some (cs !! c) -> Acc (fun k c => references cs c k) c) ->
  exists n, forall fuel, n <= fuel -> exists cache, compute_refs fuel cs dm = Ok cache.
Proof.
  intros Hclo Hacc. unfold compute_refs.
  assert (forall l, (forall c, c ∈ l -> is_Some (cs !! c)) -> exists n, forall fuel c0, n <= fuel -> exists c1,
    foldM (fun cache name => if bool_decide (name ∈ dom cache) then Ok cache else compute_refs_for fuel cs dm cache name) c0 l = Ok c1) as Hl.
  { induction l as [|c l IH]; intros Hin.
    - exists 0. intros. by eexists.
    - destruct IH as [n1 H1]; [intros; apply Hin; by right|].
      destruct (compute_refs_for_enough c) as [n2 H2]; [done|apply Hin; by left|apply Hacc, Hin; by left|].
      exists (n1 + n2). intros fuel c0 Hf. cbn -[elem_of].
      case_bool_decide; cbn; [apply H1; lia|].
      destruct (H2 fuel c0) as [c1 E]; [lia|]. rewrite E. cbn. apply H1. lia. }
  destruct (Hl (sorted_names cs)) as [n Hn]; [intros c; by rewrite elem_of_sorted_names|].
  exists n. intros fuel Hf. by apply Hn.
Qed.
End Forest.
