(** C30, C55: cluster files. *)
From Coq Require Import String Ascii.
From stdpp Require Import gmap sorting strings list.
From Coq Require Import ZArith Reals Lia.
From Verif Require Import M_base M_dist M_crp M_domain M_relation M_noisy M_irm M_hirm M_text M_io M_parse M_schema M_csv M_pclean_io M_gendb M_gendb_rels M_gendb_state M_pclean M_clusters
  S_crp S_crp_state S_relation S_irm S_hirm S_schema S_gendb S_gendb_rels S_gendb_state P_base P_crp P_domain P_tally P_irm_schema P_text P_schema P_io T_io P_hirm_ctor T_irm T_hirm
  P_hirm_move T_gendb_schema T_gendb_rels P_gendb T_gendb_state T_gendb_rows T_pclean S_clusters P_clusters P_clusters_hirm.
Local Open Scope nat_scope.

(** ** Round trips *)
(** The file of an IRM, read back, has the clusters of every domain. *)
Theorem C30_irm : forall o rev (W : world) A,
  orders_ok o -> world_holds W A -> printable_names rev A -> table_numbers in_range A ->
  exists file cl, irm_to_txt o rev W [] = Ok file /\ load_clusters_irm file = Ok cl /\ shows rev A cl.
Proof. exact irm_clusters. Qed.
Print Assumptions C30_irm.
(** The clusters of a file determine the clustering of the entities: seating them in empty
    domains restores it. *)
Theorem C30_irm_restored : forall o fwd rev (W : world) A W0 r,
  orders_ok o -> world_holds W A -> printable_names rev A -> table_numbers table_number A -> decodes fwd rev ->
  world_holds W0 ((fun _ => ∅) <$> A) ->
  exists file cl W', irm_to_txt o rev W [] = Ok file /\ load_clusters_irm file = Ok cl /\
    seat_clusters fwd cl W0 r = Ok (W', r) /\ world_holds W' A.
Proof.
  intros o fwd rev W A W0 r Ho HW Hp Ht Hdec HW0. destruct (irm_clusters o rev W A Ho HW Hp) as (file & cl & E1 & E2 & Hs).
  - intros d a i t Ha Hi. by eapply table_in_range, Ht.
  - destruct (seat_clusters_ok fwd rev A cl W0 r Hdec Hs) as (W' & E & HW'); [|done|by exists file, cl, W'].
    intros d a i t Ha Hi. split; [apply (Ht d a i t Ha Hi)|]. destruct (Hp d a Ha) as [_ H]. destruct (H i t Hi) as (m & x & ? & ? & _). eauto.
Qed.
Print Assumptions C30_irm_restored.
(** The file of a HIRM, read back, has the clusters of relations and, for each, the clusters
    of its domains. *)
Theorem C30_hirm {V} : forall o rev (h : hirm V) a, hirm_holds h a -> orders_ok o -> hirm_printable rev h ->
  exists file rels irms, hirm_to_txt o rev h = Ok file /\ load_clusters_hirm file = Ok (rels, irms) /\
    (forall t, is_Some (rels !! t) <-> is_Some (h_irms h !! t)) /\ (forall t, is_Some (irms !! t) <-> is_Some (h_irms h !! t)) /\
    (forall t l, rels !! t = Some l -> relations_at h t l) /\
    (forall t cl ir A, irms !! t = Some cl -> h_irms h !! t = Some ir -> world_holds (i_domains ir) A -> shows rev A cl).
Proof. intros o rev h a. apply hirm_clusters. Qed.
Print Assumptions C30_hirm.
(** The same IRM clusters restored. *)
Theorem C30_hirm_restored {V} : forall o fwd rev (h : hirm V) a, hirm_holds h a -> orders_ok o -> hirm_printable rev h -> decodes fwd rev ->
  exists file rels irms, hirm_to_txt o rev h = Ok file /\ load_clusters_hirm file = Ok (rels, irms) /\
    forall t ir A W0 r, h_irms h !! t = Some ir -> world_holds (i_domains ir) A -> world_holds W0 ((fun _ => ∅) <$> A) ->
    exists cl W', irms !! t = Some cl /\ seat_clusters fwd cl W0 r = Ok (W', r) /\ world_holds W' A.
Proof.
  intros o fwd rev h a Hh Ho Hp Hdec. destruct (hirm_clusters o rev h a Hh Ho Hp) as (file & rels & irms & E1 & E2 & _ & Di & _ & Hs).
  exists file, rels, irms. split_and!; [done..|]. intros t ir A W0 r Hir HW HW0. destruct (proj2 (Di t)) as [cl Hcl]; [eauto|].
  destruct (hp_irms _ _ Hp t ir A Hir HW) as (P1 & P2 & _).
  destruct (seat_clusters_ok fwd rev A cl W0 r Hdec (Hs t cl ir A Hcl Hir HW)) as (W' & E & HW'); [|done|by exists cl, W'].
  intros d b i tb Hb Hi. split; [apply (P2 d b i tb Hb Hi)|]. destruct (P1 d b Hb) as [_ H]. destruct (H i tb Hi) as (m & x & ? & ? & _). eauto.
Qed.
Print Assumptions C30_hirm_restored.

(** ** A concrete HIRM *)
Definition plainb (x : string) : bool := negb (bool_decide (x = EmptyString)) && forallb (fun c => negb (isspace c)) (txt x).
Lemma plainb_ok x : plainb x = true -> plain x.
Proof.
  unfold plainb. rewrite andb_true_iff, negb_true_iff, bool_decide_eq_false, forallb_forall. intros [H1 H2]. split; [done|].
  intros c Hc%elem_of_list_In%H2. by apply negb_true_iff.
Qed.
Definition domain_likeb (x : string) : bool :=
  forallb ascii7 (txt x) && existsb (fun c => negb (isdigit c)) (txt x) && negb (bool_decide (take 4 (txt x) = txt "irm=")).
Lemma domain_likeb_ok x : domain_likeb x = true -> domain_like x.
Proof.
  unfold domain_likeb. rewrite !andb_true_iff, negb_true_iff, bool_decide_eq_false, forallb_forall, existsb_exists. intros [[H1 (c & Hc & Hd)] H3]. split_and!; [|exists c|done].
  - intros c' Hc'%elem_of_list_In. by apply H1.
  - apply elem_of_list_In in Hc. by apply negb_true_iff in Hd.
Qed.
Definition item_ok (rev : gmap string (gmap Z string)) (d : string) (it : Z * Z) : bool :=
  bool_decide (0 <= it.2 < 2 ^ 31)%Z && match rev !! d ≫= (.!! it.1) with Some x => plainb x | None => false end.
Definition world_ok (rev : gmap string (gmap Z string)) (W : world) : bool :=
  forallb (fun p => plainb p.1 && domain_likeb p.1 && forallb (item_ok rev p.1) (map_to_list (crp_assignments (dom_crp p.2)))) (map_to_list W).
Lemma world_ok_sound rev W A : world_ok rev W = true -> world_holds W A -> printable_names rev A /\ table_numbers table_number A /\ forall d, d ∈ dom A -> domain_like d.
Proof.
  intros H HW. unfold world_ok in H. rewrite forallb_forall in H.
  assert (forall d a, A !! d = Some a -> plain d /\ domain_like d /\ forall i t, a !! i = Some t -> table_number t /\ exists m x, rev !! d = Some m /\ m !! i = Some x /\ plain x) as HA.
  { intros d a Ha. pose proof (HW d) as Hd. rewrite Ha in Hd. destruct (W !! d) as [dm|] eqn:Ed; [|done]. destruct Hd as [_ Hs].
    specialize (H (d, dm) (proj1 (elem_of_list_In _ _) (proj2 (elem_of_map_to_list W d dm) Ed))). cbn [fst snd] in H. rewrite !andb_true_iff, forallb_forall in H.
    destruct H as [[H1%plainb_ok H2%domain_likeb_ok] H3]. split_and!; [done..|]. intros i t Hi. rewrite (hs_assign _ _ Hs) in H3.
    specialize (H3 (i, t) (proj1 (elem_of_list_In _ _) (proj2 (elem_of_map_to_list a i t) Hi))). unfold item_ok in H3. cbn [fst snd] in H3. rewrite andb_true_iff, bool_decide_eq_true in H3.
    destruct H3 as [H3 H4]. split; [done|]. destruct (rev !! d) as [m|]; [|done]. cbn in H4. exists m. destruct (m !! i) as [x|]; [|done]. exists x. split_and!; [done..|by apply plainb_ok]. }
  split_and!.
  - intros d a Ha. destruct (HA d a Ha) as (? & _ & H'). split; [done|]. intros i t Hi. by apply (H' i t).
  - intros d a i t Ha Hi. destruct (HA d a Ha) as (_ & _ & H'). by apply (H' i t).
  - intros d [a Ha]%elem_of_dom. by apply (HA d a).
Qed.
Definition hirm_ok {V} (rev : gmap string (gmap Z string)) (h : hirm V) : bool :=
  forallb (fun p => plainb p.1) (map_to_list (h_code h)) &&
  forallb (fun p => bool_decide (0 <= p.2 < 2 ^ 31)%Z) (map_to_list (crp_assignments (h_crp h))) &&
  forallb (fun p => world_ok rev (i_domains p.2)) (map_to_list (h_irms h)).
Lemma hirm_ok_sound {V} rev (h : hirm V) : hirm_ok rev h = true -> hirm_printable rev h.
Proof.
  unfold hirm_ok. rewrite !andb_true_iff, !forallb_forall. intros [[H1 H2] H3]. split.
  - intros name t. unfold table_of. destruct (h_code h !! name) as [rc|]; [|done]. cbn. intros Ht.
    specialize (H2 (rc, t) (proj1 (elem_of_list_In _ _) (proj2 (elem_of_map_to_list _ rc t) Ht))). by apply bool_decide_eq_true in H2.
  - intros name [rc Hrc]. apply plainb_ok. exact (H1 (name, rc) (proj1 (elem_of_list_In _ _) (proj2 (elem_of_map_to_list _ name rc) Hrc))).
  - intros t ir A Hir HW. apply world_ok_sound with (W := i_domains ir); [|done]. exact (H3 (t, ir) (proj1 (elem_of_list_In _ _) (proj2 (elem_of_map_to_list _ t ir) Hir))).
Qed.

Definition C30_calls : list (hirm_call bool) :=
  [HAdd "q" (TClean ["d"] true tally_dist tt) [1]; HIncorporate "r" [1; 7]%Z true [0]; HIncorporate "r" [2; 7]%Z false [1];
   HIncorporate "a" [1; 7]%Z true []; HIncorporate "q" [5]%Z true [1]; HMove some_orders "r" 40 [0; 1; 0; 1]].
Lemma C30_calls_ok : calls_ok C15_schema C30_calls.
Proof. simpl. pose proof some_orders_ok as Ho. split_and!; try exact I; try exact Ho. - by exists tally_lawful. - done. Qed.
Definition C30_rev : gmap string (gmap Z string) :=
  {[ "d" := {[ 1%Z := "ann"; 2%Z := "bob"; 5%Z := "eve" ]}; "c" := {[ 7%Z := "red" ]} ]}.
Definition C30_file : list string := ["1 a q"; "40 r"; ""; "irm=1"; "d 0 ann"; "d 1 eve"; "c 0 red"; ""; "irm=40"; "d 0 ann bob"; "c 0 red"].
Example C30_met : exists (h : hirm bool) a, hirm_holds h a /\ hirm_printable C30_rev h /\ orders_ok some_orders /\
  hirm_to_txt some_orders C30_rev h = Ok (lines_of (map txt C30_file)).
Proof.
  assert ((let* h := (let* (h0, _) := hirm_new C15_schema [0; 1] in foldM hirm_do h0 C30_calls) in
    let* file := hirm_to_txt some_orders C30_rev h in
    Ok (hirm_ok C30_rev h, file)) = Ok (true, lines_of (map txt C30_file))) as H by by_compute.
  apply obind_Ok in H as (h & H & Hf). apply obind_Ok in Hf as (file & Hf & [= Hok ->]).
  destruct (start_and_run C15_schema [0; 1] C30_calls h C15_schema_lawful C30_calls_ok H) as (h0 & r0 & H0 & _ & Hrun).
  destruct (proj1 (hirm_new_spec C15_schema [0; 1] C15_schema_lawful) _ _ H0) as [([a0 Hh0] & _) _].
  destruct (hirm_run_spec h0 _ h Hrun a0 Hh0) as ([a Hh] & _). exists h, a. split_and!; [done|by apply hirm_ok_sound|apply some_orders_ok|done].
Qed.

(** ** Cases the conditions exclude *)
(** A blank in a name: the file is read as clusters of other entities. *)
Theorem C30_space_refuted : exists o rev (W : world) A file cl, orders_ok o /\ world_holds W A /\ table_numbers table_number A /\
  (forall d a i t, A !! d = Some a -> a !! i = Some t -> exists m x, rev !! d = Some m /\ m !! i = Some x) /\
  irm_to_txt o rev W [] = Ok file /\ load_clusters_irm file = Ok cl /\ ~ shows rev A cl.
Proof.
  set (rev := {[ "d" := {[ 0%Z := "New York" ]} ]} : gmap string (gmap Z string)).
  destruct (dom_incorporate_new dom_new ∅ 0%Z 3%Z [] domain_holds_new (lookup_empty _)) as (dm & t & r' & E & Hd & _).
  assert (t = 3%Z) as ->.
  { pose proof (hs_assign _ _ (proj2 Hd)) as Ha. assert ((let* (dm, _) := dom_incorporate dom_new 0%Z 3%Z [] in Ok (crp_assignments (dom_crp dm) !! 0%Z)) = Ok (Some 3%Z)) as E' by by_compute.
    rewrite E in E'. cbn [obind] in E'. rewrite Ha, lookup_insert in E'. by injection E'. }
  exists some_orders, rev, {[ "d" := dm ]}, {[ "d" := <[0%Z := 3%Z]> ∅ ]}.
  assert ((let* (dm, _) := dom_incorporate dom_new 0%Z 3%Z [] in irm_to_txt some_orders rev {[ "d" := dm ]} []) = Ok (lines_of (map txt ["d 3 New York"]))) as Ew by by_compute.
  rewrite E in Ew. cbn [obind] in Ew.
  assert ((let* cl := load_clusters_irm (lines_of (map txt ["d 3 New York"])) in Ok (cl !! "d" ≫= (.!! 3%Z))) = Ok (Some ["New"; "York"])) as El by by_compute.
  apply obind_Ok in El as (cl & El & Ecl). injection Ecl as Ecl.
  exists (lines_of (map txt ["d 3 New York"])), cl. split_and!; [apply some_orders_ok| | | |done|done|].
  - intros d. destruct (decide (d = "d")) as [->|Hne]; [by rewrite !lookup_singleton|]. by rewrite !lookup_singleton_ne.
  - intros d a i t [<- <-]%lookup_singleton_Some [[<- <-]|[_ ?]]%lookup_insert_Some; [unfold table_number; lia|done].
  - intros d a i t [<- <-]%lookup_singleton_Some [[<- <-]|[_ ?]]%lookup_insert_Some; [|done]. exists {[ 0%Z := "New York" ]}, "New York". unfold rev. by rewrite !lookup_singleton.
  - intros Hs. destruct (cl !! "d") as [m|] eqn:Em; [|done]. cbn in Ecl. destruct (proj1 (sh_tables _ _ _ Hs "d" 3%Z ["New"; "York"])) as (a & Ha & _ & _ & _ & Hl); [eauto|].
    destruct (proj1 (Hl "New")) as (i & m' & _ & Hm' & Hi); [by left|]. apply lookup_singleton_Some in Hm' as [_ <-]. apply lookup_singleton_Some in Hi as [_ Hi]. done.
Qed.
Print Assumptions C30_space_refuted.
(** A domain whose name is a numeral, or begins with [irm=]: the file of a HIRM cannot be
    read. *)
Definition odd_schema (d : string) : gmap string (t_rel bool) := {[ "r" := TClean [d] true tally_dist tt ]}.
Lemma odd_schema_lawful d : schema_lawful (odd_schema d).
Proof. intros n t. unfold odd_schema. intros [<- <-]%lookup_singleton_Some. split; [by exists tally_lawful|done]. Qed.
Lemma odd_domain d l : calls_ok (odd_schema d) [HIncorporate "r" [0%Z] true []] ->
  (let* h := (let* (h0, _) := hirm_new (odd_schema d) [] in foldM hirm_do h0 [HIncorporate "r" [0%Z] true []]) in
    hirm_to_txt some_orders {[ d := {[ 0%Z := "x" ]} ]} h) = Ok l ->
  exists (h : hirm bool) a, hirm_holds h a /\ orders_ok some_orders /\ hirm_to_txt some_orders {[ d := {[ 0%Z := "x" ]} ]} h = Ok l.
Proof.
  intros Hc H. apply obind_Ok in H as (h & H & Hf).
  destruct (start_and_run (odd_schema d) [] _ h (odd_schema_lawful d) Hc H) as (h0 & r0 & H0 & _ & Hrun).
  destruct (proj1 (hirm_new_spec (odd_schema d) [] (odd_schema_lawful d)) _ _ H0) as [([a0 Hh0] & _) _].
  destruct (hirm_run_spec h0 _ h Hrun a0 Hh0) as ([a Hh] & _). exists h, a. split_and!; [done|apply some_orders_ok|done].
Qed.
Theorem C30_domain_names_refuted : forall d, d = "5" \/ d = "irm=x" -> exists o rev (h : hirm bool) a file, hirm_holds h a /\ orders_ok o /\
  (forall d m i x, rev !! d = Some m -> m !! i = Some x -> plain d /\ plain x) /\
  hirm_to_txt o rev h = Ok file /\ load_clusters_hirm file = AssertFail.
Proof.
  intros d Hd. assert (plain d) as Hp by (destruct Hd as [->| ->]; by apply plainb_ok).
  destruct (odd_domain d (lines_of (map txt ["0 r"; ""; "irm=0"; d +:+ " 0 x"]))) as (h & a & Hh & Ho & Hf).
  - simpl. split_and!; done.
  - destruct Hd as [->| ->]; by_compute.
  - exists some_orders, {[ d := {[ 0%Z := "x" ]} ]}, h, a, (lines_of (map txt ["0 r"; ""; "irm=0"; d +:+ " 0 x"])). split_and!; try done.
    + intros d' m i x [<- <-]%lookup_singleton_Some [<- <-]%lookup_singleton_Some. split; [done|]. by apply plainb_ok.
    + destruct Hd as [->| ->]; vm_compute; reflexivity.
Qed.
Print Assumptions C30_domain_names_refuted.

(** ** Entities without a name *)
Definition ok_or_throws {A} (x : outcome A) : Prop := (exists y, x = Ok y) \/ x = Throws.
Lemma fold_ok_or_throws {A S} (f : S -> A -> outcome S) l : (forall s a, ok_or_throws (f s a)) -> forall s, ok_or_throws (foldM f s l).
Proof.
  intros Hf. induction l as [|a l IH]; intros s; cbn [foldM]; [left; eauto|]. destruct (Hf s a) as [[s' ->]| ->]; cbn [obind]; [apply IH|by right].
Qed.
Lemma fold_throws {A S} (f : S -> A -> outcome S) l a : a ∈ l -> (forall s a, ok_or_throws (f s a)) -> (forall s, f s a = Throws) -> forall s, foldM f s l = Throws.
Proof.
  intros Ha Hf Ht. induction l as [|b l IH]; [by apply elem_of_nil in Ha|]. intros s. cbn [foldM]. apply elem_of_cons in Ha as [<-|Ha]; [by rewrite Ht|].
  destruct (Hf s b) as [[s' ->]| ->]; cbn [obind]; [by apply IH|done].
Qed.
Lemma at_ok_or_throws {A} (x : option A) : ok_or_throws (at_ x).
Proof. destruct x; [left; eauto|by right]. Qed.
Lemma bind_ok_or_throws {A B} (x : outcome A) (k : A -> outcome B) : ok_or_throws x -> (forall a, ok_or_throws (k a)) -> ok_or_throws (obind x k).
Proof. intros [[y ->]| ->] Hk; cbn [obind]; [apply Hk|by right]. Qed.
Lemma ok_is_ok {A} (x : A) : ok_or_throws (Ok x).
Proof. left. eauto. Qed.
Lemma bind_throws {A B} (x : outcome A) (k : A -> outcome B) : x = Throws -> obind x k = Throws.
Proof. by intros ->. Qed.
Lemma name_item_total rev d s i : ok_or_throws (name_item rev d s i).
Proof. unfold name_item. repeat (apply bind_ok_or_throws; [apply at_ok_or_throws|intros ?]). apply ok_is_ok. Qed.
Lemma write_table_total o rev d c out t : ok_or_throws (write_table o rev d c out t).
Proof. unfold write_table. apply bind_ok_or_throws; [apply fold_ok_or_throws, name_item_total|intros ?; apply ok_is_ok]. Qed.
Lemma write_domain_total o rev W out d : ok_or_throws (write_domain o rev W out d).
Proof. unfold write_domain. apply bind_ok_or_throws; [apply at_ok_or_throws|]. intros dm. apply fold_ok_or_throws. apply write_table_total. Qed.
Lemma irm_to_txt_total o rev W out : ok_or_throws (irm_to_txt o rev W out).
Proof. apply fold_ok_or_throws, write_domain_total. Qed.
(** A state with an entity that the encoding does not name cannot be written. *)
Theorem C30_unnamed_throws {V} : forall o rev (h : hirm V) d i, orders_ok o -> has_entity h d i ->
  (forall m, rev !! d = Some m -> m !! i = None) -> hirm_to_txt o rev h = Throws.
Proof.
  intros o rev h d i (_ & _ & Hon & Hoe) (t & ir & dm & tb & s & Ht & Hir & Hdm & Hs & Hi) Hno.
  assert (t ∈ sorted_keys (crp_tables (h_crp h))) as Ht' by by apply P_base.elem_of_sorted_keys.
  assert (forall out, irm_to_txt o rev (i_domains ir) out = Throws) as Hthrow.
  { intros out. apply (fold_throws _ _ d); [by rewrite Hon, elem_of_elements; apply elem_of_dom_2 in Hdm|apply write_domain_total|]. intros out'. unfold write_domain. rewrite Hdm. cbn [at_ obind].
    apply (fold_throws _ _ tb); [by apply P_base.elem_of_sorted_keys|apply write_table_total|]. intros out2. unfold write_table. apply bind_throws. rewrite Hs. change (default ∅ (Some s)) with s.
    apply (fold_throws _ _ i); [by rewrite Hoe, elem_of_elements|apply name_item_total|]. intros acc. unfold name_item. destruct (rev !! d) as [m|]; [|done]. cbn [at_ obind]. by rewrite Hno. }
  unfold hirm_to_txt. destruct (fold_ok_or_throws (write_rels o h) (sorted_keys (crp_tables (h_crp h)))) with (s := [] : text) as [[out ->]| ->]; [|cbn [obind]|done].
  - intros out t'. unfold write_rels. apply bind_ok_or_throws; [|intros ?; apply ok_is_ok]. apply fold_ok_or_throws. intros acc rc. apply bind_ok_or_throws; [apply at_ok_or_throws|intros ?; apply ok_is_ok].
  - apply bind_throws. apply (fold_throws _ _ t); [done| |].
    + intros [out' j] t'. unfold write_irm. apply bind_ok_or_throws; [apply at_ok_or_throws|]. intros ir'. apply bind_ok_or_throws; [apply irm_to_txt_total|]. intros out2. case_bool_decide; apply ok_is_ok.
    + intros [out' j]. unfold write_irm. rewrite Hir. cbn [at_ obind]. by rewrite Hthrow.
Qed.
Print Assumptions C30_unnamed_throws.
(** The entities of an observation are in the domains of its cluster. *)
Lemma observed_entity {V} (h : hirm V) a n l v x d i : hirm_holds h a -> hirm_lookup h n = Some x -> any_data x !! l = Some v -> mentions (any_doms x) l d i -> has_entity h d i.
Proof.
  intros Hh Hx Hv Hm. apply hirm_lookup_iff in Hx as (t & ir & Ht & Hir & Hx). pose proof (hh_irms _ _ Hh t) as Hi. rewrite Hir in Hi. destruct Hi as (Hne & [A HA] & _).
  assert (is_Some (seat A d i)) as [tb Htb].
  { pose proof (ih_rels _ _ _ HA n x Hx) as Ha. destruct x as [D rel|nr]; cbn in Ha, Hv, Hm.
    - destruct Ha as [L Ha]. destruct (rh_known _ _ _ Ha l v Hv) as [Hb _]. apply P_relation.block_of_is_Some in Hb as [_ Hb]. by apply Hb.
    - destruct Ha as ([L Ha] & Hd & _). rewrite Hd, lookup_fmap in Hv. destruct (r_data (n_rel nr) !! l) as [w|] eqn:Ew; [|done].
      destruct (rh_known _ _ _ Ha l w Ew) as [Hb _]. apply P_relation.block_of_is_Some in Hb as [_ Hb]. by apply Hb. }
  pose proof (ih_world _ _ _ HA d) as HW. unfold seat in Htb. destruct (A !! d) as [b|]; [|done]. destruct (i_domains ir !! d) as [dm|] eqn:Ed; [|done]. destruct HW as [_ Hs]. cbn in Htb.
  assert (i ∈ customers_at b tb) as Hin by by apply elem_of_customers_at.
  exists t, ir, dm, tb, (customers_at b tb). split_and!; [|done..| |done].
  - rewrite (hs_tables _ _ (hh_crp _ _ Hh)), decide_False by done. eauto.
  - rewrite (hs_tables _ _ Hs), decide_False; [done|]. intros E. rewrite E in Hin. by apply elem_of_empty in Hin.
Qed.

(** * C55 *)
(** The clusters of a PClean model cannot be written once an entity of a class that no class
    refers to, such as a row of the record class, takes part in an observation. *)
Theorem C55_output_refuted {V} : forall rid (build : hdecl -> t_rel V) show only_final record_is_clean s g o d i,
  well_formed s -> (record_is_clean = true -> record_queried_once s) -> (forall c, shallow (ps_classes s) c) -> faithful build ->
  gendb_reach rid build show only_final record_is_clean s g -> orders_ok o ->
  has_entity (g_hirm g) d i -> (forall c f, ~ refers (ps_classes s) c f d) ->
  (let* enc := dummy_encoding g in hirm_to_txt o enc (g_hirm g)) = Throws.
Proof.
  intros rid build show of cl s g o d i WF Ho Hsh Hf Hg Hor He Hno.
  destruct (C41_entity_names rid build show of cl s g WF Ho Hsh Hf Hg) as (enc & -> & Henc). cbn [obind]. apply (C30_unnamed_throws o enc (g_hirm g) d i); [done..|].
  intros m Hm. destruct (m !! i) as [x|] eqn:Ex; [|done]. exfalso. destruct (proj1 (Henc d i x)) as (_ & _ & c & f & _ & _ & Hr & _); [eauto|]. by eapply Hno.
Qed.
Print Assumptions C55_output_refuted.
Theorem C55_observed_entity {V} : forall (h : hirm V) a n l v x d i, hirm_holds h a -> hirm_lookup h n = Some x -> any_data x !! l = Some v ->
  mentions (any_doms x) l d i -> has_entity h d i.
Proof. exact observed_entity. Qed.
Print Assumptions C55_observed_entity.
(** The rows of [C54_rows] are entities of the record class, and no class refers to it. *)
Definition entities_of {V} (h : hirm V) (d : string) : list Z :=
  map_to_list (h_irms h) ≫= fun p => match crp_tables (h_crp h) !! p.1, i_domains p.2 !! d with
    | Some _, Some dm => map_to_list (crp_tables (dom_crp dm)) ≫= fun q => elements q.2 | _, _ => [] end.
Lemma entities_of_ok {V} (h : hirm V) d i : i ∈ entities_of h d -> has_entity h d i.
Proof.
  unfold entities_of. intros ([t ir] & H & Hir%elem_of_map_to_list)%elem_of_list_bind. cbn [fst snd] in H. destruct (crp_tables (h_crp h) !! t) eqn:Et; [|by apply elem_of_nil in H].
  destruct (i_domains ir !! d) as [dm|] eqn:Ed; [|by apply elem_of_nil in H]. apply elem_of_list_bind in H as ([tb s] & Hi%elem_of_elements & Hs%elem_of_map_to_list). exists t, ir, dm, tb, s. split_and!; eauto.
Qed.
Example C55_met : exists g r, run_rows true true C51_schema C54_rows = Ok (g, r) /\ has_entity (g_hirm g) "Record" 1 /\
  (forall c f, ~ refers (ps_classes C51_schema) c f "Record") /\ (let* enc := dummy_encoding g in hirm_to_txt some_orders enc (g_hirm g)) = Throws.
Proof.
  set (gr := unwrap no_gendb (run_rows true true C51_schema C54_rows)).
  assert (run_rows true true C51_schema C54_rows = Ok (gr.1, gr.2)) as E by (rewrite <- surjective_pairing; apply unwrap_ok; vm_compute; reflexivity).
  assert (has_entity (g_hirm gr.1) "Record" 1) as He.
  { apply entities_of_ok. apply (bool_decide_unpack _). vm_compute. exact I. }
  clearbody gr.
  assert (forall c f, ~ refers (ps_classes C51_schema) c f "Record") as Hno.
  { assert (forallb (fun p => forallb (fun q => match q.2 with PClassVar k => negb (bool_decide (k = "Record")) | _ => true end) (map_to_list p.2)) (map_to_list (ps_classes C51_schema)) = true) as Hb by (vm_compute; reflexivity).
    rewrite forallb_forall in Hb. intros c f (cl & Hc & Hk). specialize (Hb (c, cl) (proj1 (elem_of_list_In _ _) (proj2 (elem_of_map_to_list _ c cl) Hc))). cbn [snd] in Hb. rewrite forallb_forall in Hb.
    specialize (Hb (f, PClassVar "Record") (proj1 (elem_of_list_In _ _) (proj2 (elem_of_map_to_list _ f _) Hk))). done. }
  exists gr.1, gr.2. split; [exact E|]. split; [exact He|]. split; [exact Hno|]. destruct C54_rows_hyps as (H1 & H2 & H3 & H4).
  apply (C55_output_refuted wide_hash tally_build show_bool false true C51_schema _ some_orders "Record" 1%Z H1 (fun _ => H2) H3 H4 (run_rows_reach _ _ _ _ _ _ E) some_orders_ok He Hno).
Qed.
