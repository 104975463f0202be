(** Proofs about the cluster files of a HIRM, and about seating the clusters of a file. *)
From Coq Require Import String Ascii.
From stdpp Require Import gmap sorting strings list.
From Coq Require Import ZArith Reals Lia.
From Verif Require Import M_base M_dist M_crp M_domain M_relation M_noisy M_irm M_hirm M_text M_io M_clusters
  S_crp S_crp_state S_relation S_irm S_hirm S_schema P_base P_crp P_domain P_irm_schema P_text P_schema P_io T_io S_clusters P_clusters.
Local Open Scope nat_scope.

Lemma digit7 c : isdigit c = true -> ascii7 c = true.
Proof. unfold isdigit, ascii7. rewrite andb_true_iff, !Nat.leb_le, Nat.ltb_lt. lia. Qed.
Lemma all_digits_true l : Forall (fun c => isdigit c = true) l -> all_digits l = Ok true.
Proof. induction 1 as [|c l Hc Hl IH]; cbn [all_digits]; [done|]. by rewrite digit7, Hc. Qed.
Lemma all_digits_false l c : (forall c, c ∈ l -> ascii7 c = true) -> c ∈ l -> isdigit c = false -> all_digits l = Ok false.
Proof.
  induction l as [|c' l IH]; intros H7 Hc Hd; [by apply elem_of_nil in Hc|]. cbn [all_digits]. rewrite H7 by left. destruct (isdigit c') eqn:E; [|done].
  apply IH; [intros; apply H7; by right| |done]. apply elem_of_cons in Hc as [->|Hc]; [congruence|done].
Qed.
Lemma print_nonneg t : (0 <= t)%Z -> print_int t = dec (N.size_nat (Z.to_N t)) (Z.to_N t) [].
Proof. intros Ht. unfold print_int. destruct (Z.ltb_spec t 0); [lia|done]. Qed.
Lemma isnumeric_print t : (0 <= t)%Z -> isnumeric (print_int t) = Ok true.
Proof.
  intros Ht. unfold isnumeric. destruct (print_int_word t) as [_ Hne]. rewrite all_digits_true.
  - cbn [obind]. by rewrite bool_decide_true.
  - rewrite print_nonneg by done. apply dec_isdigit.
Qed.
Lemma isnumeric_name d : domain_like d -> isnumeric (txt d) = Ok false.
Proof. intros (H7 & (c & Hc & Hd) & _). unfold isnumeric. by rewrite (all_digits_false _ c). Qed.
Lemma stoi_print t : in_range t -> stoi (print_int t) = Ok t.
Proof. intros Ht. unfold stoi. rewrite <- (app_nil_r (print_int t)), print_int_scan by done. by rewrite in_int_true. Qed.
Lemma table_in_range t : table_number t -> in_range t.
Proof. unfold table_number, in_range. lia. Qed.
Lemma next_word_print t rest : next_word (print_int t ++ space :: rest) = Some (print_int t, space :: rest).
Proof. pose proof (next_word_plain _ (space :: rest) (print_int_plain t) eq_refl) as H. by rewrite txt_str in H. Qed.
Lemma next_word_space l : next_word (space :: l) = next_word l.
Proof. unfold next_word. cbn [span]. rewrite (eq_refl : isspace space = true). destruct (span isspace l) as [a b]. done. Qed.

(** Entries of an IRM in the file of a HIRM. *)
Definition hirm_entry (e : entry) : Prop := entry_ok table_number e /\ domain_like (e_key e).1.
Lemma hirm_line_entry e rels irms k (cl : clusters) : hirm_entry e -> (0 <= k)%Z -> irms !! k = Some cl -> (cl !! (e_key e).1 ≫= (.!! (e_key e).2)) = None ->
  hirm_line (Hload rels irms k) (entry_line e) = Ok (Hload rels (<[k := put_entry cl e]> irms) k).
Proof.
  destruct e as [[[d t] n] l]. intros ((Hd & Ht & Hl & Hne & Hn) & Hdl) Hk Hik. change ((e_key (d, t, n, l)).1) with d in *. change ((e_key (d, t, n, l)).2) with t. intros Hkey.
  assert (entry_line (d, t, n, l) = txt d ++ space :: print_int t ++ space :: spaced n 1 l) as E by (cbn; done).
  unfold hirm_line. rewrite E. clear E. destruct (txt d ++ space :: print_int t ++ space :: spaced n 1 l) as [|c0 l0] eqn:E0; [by destruct (txt d)|]. rewrite <- E0. clear E0 c0 l0.
  rewrite next_word_plain by done. change (default ([], []) (Some (txt d, space :: print_int t ++ space :: spaced n 1 l))) with (txt d, space :: print_int t ++ space :: spaced n 1 l). cbv iota beta.
  rewrite isnumeric_name by done. cbn [obind]. rewrite bool_decide_false by apply Hdl. cbn [hl_irm hl_irms hl_rels]. rewrite bool_decide_true by lia. cbn [assert_ obind].
  rewrite Hik, bool_decide_true by done. cbn [assert_ obind]. rewrite next_word_space, next_word_print.
  change (default ([], []) (Some (print_int t, space :: spaced n 1 l))) with (print_int t, space :: spaced n 1 l). cbv iota beta.
  rewrite bool_decide_true by apply print_int_word. cbn [assert_ obind]. rewrite isnumeric_print by (destruct Ht; lia). cbn [assert_ obind].
  rewrite stoi_print by (by apply table_in_range). cbn [obind]. rewrite words_space by done. rewrite words_spaced by (done || lia).
  rewrite map_str_txt', bool_decide_true by done. cbn [assert_ obind at_]. rewrite str_txt.
  assert (default ∅ (cl !! d) !! t = None) as Hd'.
  { destruct (cl !! d) as [m|]; cbn in *; [done|]. apply lookup_empty. }
  rewrite bool_decide_true by done. done.
Qed.
Lemma hirm_load_entries es : Forall hirm_entry es -> NoDup (map e_key es) -> forall rels irms k (cl : clusters), (0 <= k)%Z -> irms !! k = Some cl ->
  (forall e, e ∈ es -> (cl !! (e_key e).1 ≫= (.!! (e_key e).2)) = None) ->
  foldM hirm_line (Hload rels irms k) (map entry_line es) = Ok (Hload rels (<[k := fold_left put_entry es cl]> irms) k).
Proof.
  induction 1 as [|e es He Hes IH]; intros Hnd rels irms k cl Hk Hik Hf; cbn [map foldM fold_left].
  - by rewrite insert_id.
  - cbn [map] in Hnd. apply NoDup_cons in Hnd as [Hni Hnd].
    rewrite (hirm_line_entry e rels irms k cl); [|done|done|done|apply Hf; left]. cbn [obind]. rewrite (IH Hnd rels _ k (put_entry cl e)); [by rewrite insert_insert|done|by rewrite lookup_insert|].
    intros e' Hin. rewrite put_entry_lookup. rewrite decide_False.
    + apply Hf. by right.
    + intros E. apply Hni. rewrite E. destruct (e_key e') as [x y] eqn:E'. cbn. rewrite <- E'. by apply elem_of_list_fmap_1.
Qed.
(** Relation lines. *)
Definition rel_line (t : Z) (n : nat) (l : list string) : text := print_int t ++ [space] ++ spaced n 1 l.
Lemma hirm_line_rel t n l rels irms k : table_number t -> Forall plain l -> l <> [] -> length l <= n -> rels !! t = None ->
  hirm_line (Hload rels irms k) (rel_line t n l) = Ok (Hload (<[t := l]> rels) irms k).
Proof.
  intros Ht Hl Hne Hn Hr. unfold hirm_line, rel_line. cbn [app]. destruct (print_int t ++ space :: spaced n 1 l) as [|c0 l0] eqn:E0; [destruct (print_int_word t) as [_ Hp]; by destruct (print_int t)|]. rewrite <- E0. clear E0 c0 l0.
  rewrite next_word_print. change (default ([], []) (Some (print_int t, space :: spaced n 1 l))) with (print_int t, space :: spaced n 1 l). cbv iota beta.
  rewrite isnumeric_print by (destruct Ht; lia). cbn [obind]. rewrite stoi_print by (by apply table_in_range). cbn [obind]. rewrite words_space by done. rewrite words_spaced by (done || lia).
  rewrite map_str_txt', bool_decide_true by done. cbn [assert_ obind hl_rels hl_irms hl_irm]. rewrite bool_decide_true by done. done.
Qed.
Definition irm_header (t : Z) : text := txt "irm=" ++ print_int t.
Lemma hirm_line_header t rels irms : table_number t -> irms !! t = None ->
  hirm_line (Hload rels irms (-1)) (irm_header t) = Ok (Hload rels (<[t := ∅]> irms) t).
Proof.
  intros Ht Hi. unfold hirm_line, irm_header. destruct (print_int_word t) as [Hw Hne].
  assert (next_word (txt "irm=" ++ print_int t) = Some (txt "irm=" ++ print_int t, [])) as E.
  { pose proof (next_word_plain (str (txt "irm=" ++ print_int t)) []) as H. rewrite txt_str, app_nil_r in H. apply H; [|done]. split.
    - intros E%(f_equal txt). rewrite txt_str in E. done.
    - rewrite txt_str. intros c. rewrite elem_of_app. intros [Hc|Hc]; [|rewrite Forall_forall in Hw; by apply Hw].
      repeat (apply elem_of_cons in Hc as [->|Hc]; [done|]). by apply elem_of_nil in Hc. }
  destruct (txt "irm=" ++ print_int t) as [|c0 l0] eqn:E0; [done|]. rewrite <- E0 in *. clear E0 c0 l0. rewrite E.
  change (default ([], []) (Some (txt "irm=" ++ print_int t, []))) with (txt "irm=" ++ print_int t, [] : text). cbv iota beta.
  assert (isnumeric (txt "irm=" ++ print_int t) = Ok false) as ->.
  { unfold isnumeric. reflexivity. }
  cbn [obind]. assert (take 4 (txt "irm=" ++ print_int t) = txt "irm=") as -> by reflexivity. assert (drop 4 (txt "irm=" ++ print_int t) = print_int t) as -> by reflexivity.
  rewrite bool_decide_true by done. cbn [hl_rels hl_irms hl_irm assert_ obind].
  assert (bool_decide (-1 = -1)%Z = true) as -> by by apply bool_decide_true. cbn [assert_ obind].
  rewrite bool_decide_true by (rewrite app_length; destruct (print_int t); [done|cbn; lia]). cbn [assert_ obind].
  rewrite stoi_print by (by apply table_in_range). cbn [obind]. rewrite bool_decide_true by done. done.
Qed.

Section Write.
Context {V : Type}.
Implicit Types h : hirm V.
(** The lines of the IRMs. *)
Fixpoint irm_lines (es : Z -> list entry) (n j : nat) (ts : list Z) : list text :=
  match ts with
  | [] => []
  | t :: ts' => irm_header t :: map entry_line (es t) ++ (if bool_decide (S j < n) then [[]] else []) ++ irm_lines es n (S j) ts'
  end.
Lemma write_irms_lines o rev h (es : Z -> list entry) n ts :
  (forall t, t ∈ ts -> exists ir, h_irms h !! t = Some ir /\ forall out, irm_to_txt o rev (i_domains ir) out = Ok (out ++ lines_of (map entry_line (es t)))) ->
  forall out j, j + length ts = n -> exists j', foldM (write_irm o rev h n) (out, j) ts = Ok (out ++ lines_of (irm_lines es n j ts), j').
Proof.
  induction ts as [|t ts IH]; intros Hts out j Hj; cbn [foldM irm_lines]; [exists j; by rewrite app_nil_r|]. cbn [length] in Hj.
  destruct (Hts t) as (ir & Hir & Hw); [by left|].
  assert (write_irm o rev h n (out, j) t = Ok (out ++ lines_of (irm_header t :: map entry_line (es t) ++ (if bool_decide (S j < n) then [[]] else [])), if bool_decide (S j < n) then S j else j)) as ->.
  { unfold write_irm. rewrite Hir. cbn [at_ obind]. rewrite Hw. cbn [obind].
    assert (forall l, (out ++ txt "irm=" ++ print_int t ++ [newline]) ++ lines_of l = out ++ lines_of (irm_header t :: l)) as E.
    { intros l. unfold lines_of, irm_header. cbn [map concat]. rewrite <- !app_assoc. done. }
    case_bool_decide.
    - rewrite E, app_comm_cons, lines_of_app, <- app_assoc. done.
    - by rewrite E, app_nil_r. }
  cbn [obind]. case_bool_decide as Hb.
  - destruct (IH ltac:(intros; apply Hts; by right) (out ++ lines_of (irm_header t :: map entry_line (es t) ++ [[]])) (S j)) as (j' & ->); [lia|].
    exists j'. rewrite <- app_assoc, <- lines_of_app. cbn [app]. by rewrite <- app_assoc.
  - assert (ts = []) as -> by (destruct ts; [done|cbn [length] in Hj; lia]). exists j. cbn [foldM irm_lines]. done.
Qed.
Lemma load_irms_lines (es : Z -> list entry) n ts : NoDup ts -> (forall t, t ∈ ts -> table_number t /\ Forall hirm_entry (es t) /\ NoDup (map e_key (es t))) ->
  forall j rels irms, j + length ts = n -> (forall t, t ∈ ts -> irms !! t = None) ->
  exists irms' k, foldM hirm_line (Hload rels irms (-1)) (irm_lines es n j ts) = Ok (Hload rels irms' k) /\
    forall t, irms' !! t = if decide (t ∈ ts) then Some (fold_left put_entry (es t) ∅) else irms !! t.
Proof.
  induction ts as [|t ts IH]; intros Hnd Hts j rels irms Hj Hi; cbn [irm_lines foldM].
  - exists irms, (-1)%Z. split; [done|]. intros t. rewrite decide_False by apply not_elem_of_nil. done.
  - apply NoDup_cons in Hnd as [Hni Hnd]. destruct (Hts t) as (Htn & He & Hk); [by left|]. rewrite hirm_line_header by (done || apply Hi; left). cbn [obind].
    rewrite foldM_app, (hirm_load_entries (es t) He Hk rels (<[t:=∅]> irms) t ∅); [|destruct Htn; lia|by rewrite lookup_insert|intros e _; by rewrite lookup_empty].
    cbn [obind]. rewrite insert_insert. cbn [length] in Hj. set (irms1 := <[t := fold_left put_entry (es t) ∅]> irms).
    assert (forall t', irms1 !! t' = if decide (t' ∈ [t]) then Some (fold_left put_entry (es t') ∅) else irms !! t') as H1.
    { intros t'. unfold irms1. destruct (decide (t = t')) as [->|Hne]; [rewrite lookup_insert, decide_True by left; done|].
      rewrite lookup_insert_ne by done. rewrite decide_False; [done|]. rewrite elem_of_list_singleton. congruence. }
    case_bool_decide as Hb.
    + cbn [app foldM hirm_line obind hl_rels hl_irms]. destruct (IH Hnd ltac:(intros; apply Hts; by right) (S j) rels irms1) as (irms' & k & E & Hl); [lia| |].
      * intros t' Ht'. rewrite H1, decide_False; [apply Hi; by right|]. rewrite elem_of_list_singleton. by intros ->.
      * exists irms', k. split; [exact E|]. intros t'. rewrite Hl, H1. destruct (decide (t' ∈ ts)) as [Hin|Hin].
        -- rewrite decide_True by (by right). done.
        -- destruct (decide (t' ∈ [t])) as [Hin'|Hin'].
           ++ apply elem_of_list_singleton in Hin' as ->. rewrite decide_True by left. done.
           ++ rewrite decide_False; [done|]. rewrite elem_of_list_singleton in Hin'. intros [?|?]%elem_of_cons; done.
    + assert (ts = []) as -> by (destruct ts; [done|cbn [length] in Hj; lia]). cbn [irm_lines app foldM]. exists irms1, t. split; [done|]. exact H1.
Qed.
(** The lines of the relations. *)
Lemma write_rels_lines o h (f : Z -> nat) (g : Z -> list string) ts : (forall t, f t = size (default ∅ (crp_tables (h_crp h) !! t))) ->
  (forall t, t ∈ ts -> foldM (fun acc rc => let* n := at_ (h_rel h !! rc) in Ok (acc ++ [n])) [] (o_ents o (default ∅ (crp_tables (h_crp h) !! t))) = Ok (g t)) ->
  forall out, foldM (write_rels o h) out ts = Ok (out ++ lines_of (map (fun t => rel_line t (f t) (g t)) ts)).
Proof.
  intros Hf Hg out. rewrite (foldM_writes _ (fun t => [rel_line t (f t) (g t)])).
  - f_equal.
  - intros t out' Ht. unfold write_rels. rewrite Hg, <- Hf by done. cbn [obind]. unfold lines_of, rel_line. cbn [map concat]. rewrite app_nil_r, <- !app_assoc. done.
Qed.
Lemma load_rels_lines (f : Z -> nat) (g : Z -> list string) ts irms k : NoDup ts ->
  (forall t, t ∈ ts -> table_number t /\ Forall plain (g t) /\ g t <> [] /\ length (g t) <= f t) -> forall rels, (forall t, t ∈ ts -> rels !! t = None) ->
  exists rels', foldM hirm_line (Hload rels irms k) (map (fun t => rel_line t (f t) (g t)) ts) = Ok (Hload rels' irms k) /\
    forall t, rels' !! t = if decide (t ∈ ts) then Some (g t) else rels !! t.
Proof.
  intros Hnd. induction Hnd as [|t ts Hni Hnd IH]; intros Hts rels Hr; cbn [map foldM].
  - exists rels. split; [done|]. intros t. rewrite decide_False by apply not_elem_of_nil. done.
  - destruct (Hts t) as (H1 & H2 & H3 & H4); [by left|]. rewrite hirm_line_rel by (done || (apply Hr; left)). cbn [obind].
    destruct (IH ltac:(intros; apply Hts; by right) (<[t := g t]> rels)) as (rels' & E & Hl).
    + intros t' Ht'. rewrite lookup_insert_ne by congruence. apply Hr. by right.
    + exists rels'. split; [exact E|]. intros t'. rewrite Hl. destruct (decide (t' ∈ ts)) as [Hin|Hin]; [by rewrite decide_True by (by right)|].
      destruct (decide (t = t')) as [->|Hne]; [rewrite lookup_insert, decide_True by left; done|]. rewrite lookup_insert_ne by done.
      rewrite decide_False; [done|]. intros [?|?]%elem_of_cons; congruence.
Qed.
End Write.

Section Hirm.
Context {V : Type}.
Implicit Types h : hirm V.
Definition rel_names h (l : list Z) : list string := omap (h_rel h !!.) l.
Lemma rel_names_fold h l : (forall rc, rc ∈ l -> is_Some (h_rel h !! rc)) -> forall acc,
  foldM (fun acc rc => let* n := at_ (h_rel h !! rc) in Ok (acc ++ [n])) acc l = Ok (acc ++ rel_names h l) /\ length (rel_names h l) = length l.
Proof.
  induction l as [|rc l IH]; intros Hl acc; cbn [foldM rel_names omap list_omap]; [by rewrite app_nil_r|].
  destruct (Hl rc) as [n Hn]; [by left|]. rewrite Hn. cbn [at_ obind]. destruct (IH ltac:(intros; apply Hl; by right) (acc ++ [n])) as [-> E]. rewrite <- app_assoc. cbn [app length]. split; [done|]. f_equal. exact E.
Qed.
Lemma code_at h a name t : hirm_holds h a -> table_of h name = Some t <-> exists rc, h_rel h !! rc = Some name /\ a !! rc = Some t.
Proof.
  intros H. unfold table_of. rewrite (hs_assign _ _ (hh_crp _ _ H)). split.
  - destruct (h_code h !! name) as [rc|] eqn:E; [|done]. cbn. intros Ht. exists rc. split; [by apply (hh_codes _ _ H)|done].
  - intros (rc & E%(hh_codes _ _ H) & Ht). by rewrite E.
Qed.
Lemma rel_names_at h a o t : hirm_holds h a -> orders_ok o -> relations_at h t (rel_names h (o_ents o (customers_at a t))).
Proof.
  intros H (_ & _ & _ & Ho). split.
  - assert (NoDup (o_ents o (customers_at a t))) as Hnd by (rewrite Ho; apply NoDup_elements).
    unfold rel_names. induction Hnd as [|rc l Hrc Hnd IH]; cbn [omap list_omap]; [constructor|]. destruct (h_rel h !! rc) as [n|] eqn:E; [|done].
    constructor; [|done]. intros (rc' & Hin & E')%elem_of_list_omap. apply Hrc. apply (hh_codes _ _ H) in E, E'. congruence.
  - intros name. rewrite (code_at h a) by done. unfold rel_names. rewrite elem_of_list_omap. split.
    + intros (rc & Hin & E). rewrite Ho, elem_of_elements, elem_of_customers_at in Hin. by exists rc.
    + intros (rc & E & Hin). exists rc. by rewrite Ho, elem_of_elements, elem_of_customers_at.
Qed.
Lemma hirm_clustering h a t ir : hirm_holds h a -> h_irms h !! t = Some ir -> exists A, world_holds (i_domains ir) A.
Proof. intros H Hir. pose proof (hh_irms _ _ H t) as Hi. rewrite Hir in Hi. destruct Hi as (_ & (A & HA) & _). exists A. apply HA. Qed.
Definition clustering_of (W : world) : clustering := (fun dm => crp_assignments (dom_crp dm)) <$> W.
Lemma clustering_of_holds W A : world_holds W A -> A = clustering_of W.
Proof.
  intros HW. apply map_eq. intros d. unfold clustering_of. rewrite lookup_fmap. pose proof (HW d) as Hd. destruct (W !! d) as [dm|], (A !! d) as [a|]; cbn; try done.
  destruct Hd as [_ Hs]. by rewrite (hs_assign _ _ Hs).
Qed.
Theorem hirm_clusters o rev h a : hirm_holds h a -> orders_ok o -> hirm_printable rev h ->
  exists file rels irms, hirm_to_txt o rev h = Ok file /\ load_clusters_hirm file = Ok (rels, irms) /\
    (forall t, is_Some (rels !! t) <-> is_Some (h_irms h !! t)) /\ (forall t, is_Some (irms !! t) <-> is_Some (h_irms h !! t)) /\
    (forall t l, rels !! t = Some l -> relations_at h t l) /\
    (forall t cl ir A, irms !! t = Some cl -> h_irms h !! t = Some ir -> world_holds (i_domains ir) A -> shows rev A cl).
Proof.
  intros H Ho Hp. pose proof (hh_crp _ _ H) as Hs. set (ts := sorted_keys (crp_tables (h_crp h))).
  assert (forall t, t ∈ ts <-> is_Some (h_irms h !! t)) as Hts.
  { intros t. unfold ts. rewrite (tables_iff _ a _ Hs). pose proof (hh_irms _ _ H t) as Hi. destruct (h_irms h !! t) as [ir|].
    - destruct Hi as [Hi _]. split; [eauto|done].
    - split; [done|by intros [? ?]]. }
  assert (forall t, t ∈ ts -> default ∅ (crp_tables (h_crp h) !! t) = customers_at a t /\ customers_at a t <> ∅) as Htab.
  { intros t Ht. apply (tables_iff _ a _ Hs) in Ht. rewrite (hs_tables _ _ Hs), decide_False by done. done. }
  set (g := fun t => rel_names h (o_ents o (customers_at a t))).
  set (f := fun t => size (default ∅ (crp_tables (h_crp h) !! t))).
  set (es := fun t => match h_irms h !! t with Some ir => world_entries rev o (i_domains ir) (clustering_of (i_domains ir)) | None => [] end).
  assert (forall t rc, rc ∈ o_ents o (customers_at a t) -> is_Some (h_rel h !! rc)) as Hrc.
  { intros t rc Hin. destruct Ho as (_ & _ & _ & Ho). rewrite Ho, elem_of_elements, elem_of_customers_at in Hin. apply (hh_seated _ _ H). eauto. }
  assert (forall t, t ∈ ts -> exists name, table_of h name = Some t) as Hname.
  { intros t Ht. destruct (Htab t Ht) as [_ [rc Hin%elem_of_customers_at]%set_choose_L]. destruct (proj1 (hh_seated _ _ H rc)) as [name Hn]; [eauto|].
    exists name. apply (code_at h a); [done|]. eauto. }
  assert (NoDup ts) as Hnd by apply P_base.NoDup_sorted_keys.
  assert (forall t, t ∈ ts -> table_number t /\ Forall plain (g t) /\ g t <> [] /\ length (g t) <= f t) as Hrel.
  { intros t Ht. destruct (Hname t Ht) as [name Hn]. pose proof (rel_names_at h a o t H Ho) as [_ Hg]. split_and!.
    - by eapply hp_tables.
    - apply Forall_forall. intros x Hx%Hg. apply (hp_relations _ _ Hp). unfold table_of in Hx. destruct (h_code h !! x); [eauto|done].
    - apply Hg in Hn. intros E. unfold g in E. rewrite E in Hn. by apply elem_of_nil in Hn.
    - unfold f, g. destruct (Htab t Ht) as [-> _]. destruct (rel_names_fold h (o_ents o (customers_at a t)) (Hrc t) []) as [_ ->].
      destruct Ho as (_ & _ & _ & Ho). by rewrite Ho. }
  assert (forall t, t ∈ ts -> table_number t /\ Forall hirm_entry (es t) /\ NoDup (map e_key (es t))) as Hes.
  { intros t Ht. split; [by apply Hrel|]. unfold es. apply Hts in Ht as [ir Hir]. rewrite Hir. split; [|by apply world_entries_keys].
    destruct (hirm_clustering h a t ir H Hir) as [A HW]. destruct (hp_irms _ _ Hp t ir A Hir HW) as (P1 & P2 & P3). rewrite <- (clustering_of_holds _ _ HW).
    pose proof (world_entries_ok table_number o rev (i_domains ir) A Ho HW P1 P2) as Hok. rewrite Forall_forall in Hok. apply Forall_forall. intros e He. split; [by apply Hok|].
    destruct e as [[[d t'] n] l]. apply elem_of_world_entries in He as (a' & Ha' & _); [|done..]. apply P3. by apply elem_of_dom_2 in Ha'. }
  destruct (load_rels_lines f g ts ∅ 0%Z Hnd Hrel ∅) as (rels & Er & Hr); [intros; apply lookup_empty|].
  destruct (load_irms_lines es (length ts) ts Hnd Hes 0 rels ∅ eq_refl) as (irms & k & Ei & Hi); [intros; apply lookup_empty|].
  destruct (write_irms_lines o rev h es (length ts) ts) with (out := ([] ++ lines_of (map (fun t => rel_line t (f t) (g t)) ts)) ++ [newline]) (j := 0) as (j' & Ew); [|done|].
  { intros t [ir Hir]%Hts. exists ir. split; [done|]. intros out. unfold es. rewrite Hir. destruct (hirm_clustering h a t ir H Hir) as [A HW]. rewrite <- (clustering_of_holds _ _ HW).
    apply irm_to_txt_entries; [done..|]. by eapply hp_irms. }
  assert (forall t, is_Some (rels !! t) <-> is_Some (h_irms h !! t)) as Dr.
  { intros t. rewrite Hr, <- Hts. destruct (decide (t ∈ ts)); [split; [done|eauto]|]. rewrite lookup_empty. split; [by intros [? ?]|done]. }
  assert (forall t, is_Some (irms !! t) <-> is_Some (h_irms h !! t)) as Di.
  { intros t. rewrite Hi, <- Hts. destruct (decide (t ∈ ts)); [split; [done|eauto]|]. rewrite lookup_empty. split; [by intros [? ?]|done]. }
  assert (dom rels = dom irms) as Ed by (apply set_eq; intros t; by rewrite !elem_of_dom, Dr, Di).
  eexists _, rels, irms. split_and!.
  - unfold hirm_to_txt. fold ts. rewrite (write_rels_lines o h f g ts); [|done|].
    + cbn [obind]. rewrite Ew. cbn [obind]. reflexivity.
    + intros t Ht. destruct (Htab t Ht) as [-> _]. destruct (rel_names_fold h (o_ents o (customers_at a t)) (Hrc t) []) as [-> _]. done.
  - unfold load_clusters_hirm. cbn [app].
    assert ((lines_of (map (fun t => rel_line t (f t) (g t)) ts) ++ [newline]) ++ lines_of (irm_lines es (length ts) 0 ts)
      = lines_of (map (fun t => rel_line t (f t) (g t)) ts ++ [[]] ++ irm_lines es (length ts) 0 ts)) as ->.
    { rewrite !lines_of_app, <- !app_assoc. done. }
    rewrite getlines_lines_of.
    + rewrite foldM_app, Er. cbn [obind app]. change (foldM hirm_line (Hload rels ∅ 0) ([] :: irm_lines es (length ts) 0 ts)) with (foldM hirm_line (Hload rels ∅ (-1)) (irm_lines es (length ts) 0 ts)). rewrite Ei. cbn [obind hl_rels hl_irms].
      rewrite bool_decide_true by (rewrite <- !size_dom, Ed; done). cbn [assert_ obind]. rewrite bool_decide_true by (by rewrite Ed). done.
    + apply Forall_app. split; [|apply Forall_app; split].
      * apply Forall_forall. intros x. change (map (fun t => rel_line t (f t) (g t)) ts) with ((fun t => rel_line t (f t) (g t)) <$> ts). intros (t & -> & Ht)%elem_of_list_fmap.
        destruct (Hrel t Ht) as (_ & Hg & _). unfold rel_line. pose proof (print_line t). pose proof (spaced_line (f t) (g t) 1 Hg).
        assert (newline ∉ [space]) by (rewrite elem_of_list_singleton; done). rewrite !not_elem_of_app. done.
      * repeat constructor. apply not_elem_of_nil.
      * clear -Hes. revert Hes. generalize 0 at 1. generalize (length ts). induction ts as [|t ts' IH]; intros n j Hes; cbn [irm_lines]; constructor.
        -- unfold irm_header. rewrite not_elem_of_app. split; [|apply print_line]. intros Hc. repeat (apply elem_of_cons in Hc as [Hc|Hc]; [done|]). by apply elem_of_nil in Hc.
        -- apply Forall_app. split; [|apply Forall_app; split].
           ++ apply (entries_no_newline table_number). destruct (Hes t) as (_ & He & _); [by left|]. eapply Forall_impl; [exact He|]. by intros e [? _].
           ++ case_bool_decide; repeat constructor. apply not_elem_of_nil.
           ++ apply IH. intros; apply Hes; by right.
  - exact Dr.
  - exact Di.
  - intros t l. rewrite Hr. case_decide; [|by rewrite lookup_empty]. intros [= <-]. by eapply rel_names_at.
  - intros t cl ir A. rewrite Hi. case_decide; [|by rewrite lookup_empty]. intros [= <-] Hir HW. unfold es. rewrite Hir, <- (clustering_of_holds _ _ HW).
    by apply fold_put_shows.
Qed.
End Hirm.

(** * Seating the clusters of a file *)
Lemma seat_item_ok fwd d t W B b x i r : world_holds W B -> B !! d = Some b -> (0 <= t)%Z -> (exists m, fwd !! d = Some m /\ m !! x = Some i) -> b !! i = None ->
  exists W', seat_item fwd d t (W, r) x = Ok (W', r) /\ world_holds W' (<[d := <[i := t]> b]> B).
Proof.
  intros HW Hb Ht (m & Em & Ei) Hi. unfold seat_item. rewrite Em. cbn [at_ obind]. rewrite Ei. cbn [at_ obind].
  pose proof (HW d) as Hd. rewrite Hb in Hd. destruct (W !! d) as [dm|] eqn:Ed; [|done]. cbn [at_ obind]. destruct Hd as [Hit Hs].
  unfold dom_incorporate. rewrite bool_decide_false by (rewrite Hit; by apply not_elem_of_dom). rewrite bool_decide_true by done. cbn [obind].
  destruct (holds_incorporate _ _ i t Hs Hi) as (c' & -> & Hc & _). cbn [obind]. eexists. split; [reflexivity|].
  intros d'. destruct (decide (d = d')) as [<-|Hne].
  - rewrite !lookup_insert. split; [|done]. cbn. by rewrite Hit, dom_insert_L.
  - rewrite !lookup_insert_ne by done. apply HW.
Qed.
Lemma seat_items_ok fwd d t r l : (0 <= t)%Z -> forall W B b is', world_holds W B -> B !! d = Some b -> 
  Forall2 (fun x i => exists m, fwd !! d = Some m /\ m !! x = Some i) l is' -> NoDup is' -> (forall i, i ∈ is' -> b !! i = None) ->
  exists W' b', foldM (seat_item fwd d t) (W, r) l = Ok (W', r) /\ world_holds W' (<[d := b']> B) /\
    forall i, b' !! i = if decide (i ∈ is') then Some t else b !! i.
Proof.
  intros Ht. induction l as [|x l IH]; intros W B b is' HW Hb Hf Hnd Hi; cbn [foldM].
  - apply Forall2_nil_inv_l in Hf as ->. exists W, b. rewrite insert_id by done. split_and!; [done..|]. intros i. by rewrite decide_False by apply not_elem_of_nil.
  - apply Forall2_cons_inv_l in Hf as (i & is1 & Hx & Hf & ->). apply NoDup_cons in Hnd as [Hni Hnd].
    destruct (seat_item_ok fwd d t W B b x i r) as (W1 & -> & HW1); [done..|apply Hi; by left|]. cbn [obind].
    destruct (IH W1 (<[d := <[i := t]> b]> B) (<[i := t]> b) is1) as (W' & b' & E & HW' & Hb'); [done|by rewrite lookup_insert|done|done| |].
    + intros j Hj. rewrite lookup_insert_ne by congruence. apply Hi. by right.
    + exists W', b'. rewrite insert_insert in HW'. split_and!; [done..|]. intros j. rewrite Hb'. destruct (decide (j ∈ is1)) as [Hj|Hj].
      * by rewrite decide_True by (by right).
      * destruct (decide (i = j)) as [->|Hne]; [rewrite lookup_insert, decide_True by left; done|]. rewrite lookup_insert_ne by done.
        rewrite decide_False; [done|]. intros [?|?]%elem_of_cons; congruence.
Qed.
Lemma names_codes fwd rev d s l : decodes fwd rev -> names_of rev d s l -> (forall i, i ∈ s -> exists m x, rev !! d = Some m /\ m !! i = Some x) ->
  exists is', Forall2 (fun x i => exists m, fwd !! d = Some m /\ m !! x = Some i) l is' /\ NoDup is' /\ forall i, i ∈ is' <-> i ∈ s.
Proof.
  intros Hdec (_ & Hnd & Hl) Hs.
  assert (forall x, x ∈ l -> exists i, i ∈ s /\ exists m, fwd !! d = Some m /\ m !! x = Some i) as Hx.
  { intros x (i & m & Hi & E1 & E2)%Hl. exists i. split; [done|]. apply Hdec. eauto. }
  assert (forall x x' i, (exists m, fwd !! d = Some m /\ m !! x = Some i) -> (exists m, fwd !! d = Some m /\ m !! x' = Some i) -> x = x') as Hinj.
  { intros x x' i (m & E1 & E2)%Hdec (m' & E1' & E2')%Hdec. congruence. }
  set (g := fun x => m ← fwd !! d; m !! x).
  assert (forall x i, g x = Some i <-> exists m, fwd !! d = Some m /\ m !! x = Some i) as Hg.
  { intros x i. unfold g. destruct (fwd !! d) as [m|]; cbn; [|split; [done|by intros (? & ? & _)]]. split; [eauto|by intros (? & [= <-] & ?)]. }
  exists (omap g l). split_and!.
  - assert (forall x, x ∈ l -> exists i, g x = Some i) as Hgx by (intros x (i & _ & Hi%Hg)%Hx; eauto).
    clear -Hg Hgx. induction l as [|x l IH]; cbn [omap list_omap]; [constructor|]. destruct (Hgx x) as [i Hi]; [by left|]. rewrite Hi. constructor; [by apply Hg|].
    apply IH. intros; apply Hgx; by right.
  - clear -Hnd Hg Hinj. induction Hnd as [|x l Hx Hnd IH]; cbn [omap list_omap]; [constructor|]. destruct (g x) as [i|] eqn:E; [|done]. constructor; [|done].
    intros (x' & Hin & E')%elem_of_list_omap. apply Hx. by rewrite (Hinj x x' i) by (by apply Hg).
  - intros i. rewrite elem_of_list_omap. split.
    + intros (x & Hin & Hi%Hg). apply Hl in Hin as (j & m & Hj & Ej). assert (exists m, rev !! d = Some m /\ m !! i = Some x) as (m' & E1 & E2) by (by apply Hdec).
      assert (exists m, fwd !! d = Some m /\ m !! x = Some j) as Hj' by (apply Hdec; eauto). apply Hg in Hi. apply Hg in Hj'. congruence.
    + intros Hi. destruct (Hs i Hi) as (m & x & E1 & E2). exists x. split; [apply Hl; eauto|]. apply Hg, Hdec. eauto.
Qed.
(** One domain: its tables [ts] out of the clusters [m], which show [a]. *)
Lemma seat_tables_ok fwd rev d (m : gmap Z (list string)) a r ts : decodes fwd rev -> NoDup ts ->
  (forall i t, a !! i = Some t -> exists m x, rev !! d = Some m /\ m !! i = Some x) ->
  (forall t, t ∈ ts -> (0 <= t)%Z /\ exists l, m !! t = Some l /\ names_of rev d (customers_at a t) l) ->
  forall W B b, world_holds W B -> B !! d = Some b -> (forall i t, t ∈ ts -> a !! i = Some t -> b !! i = None) ->
  exists W' b', foldM (seat_table fwd d m) (W, r) ts = Ok (W', r) /\ world_holds W' (<[d := b']> B) /\
    forall i t, b' !! i = Some t <-> (t ∈ ts /\ a !! i = Some t) \/ b !! i = Some t.
Proof.
  intros Hdec Hnd Hna. induction Hnd as [|t ts Hni Hnd IH]; intros Hts W B b HW Hb Hf; cbn [foldM].
  - exists W, b. rewrite insert_id by done. split_and!; [done..|]. intros i t. split; [by right|]. intros [[?%elem_of_nil _]|]; done.
  - destruct (Hts t) as (Ht0 & l & Hl & Hn); [by left|]. 
    assert (seat_table fwd d m (W, r) t = foldM (seat_item fwd d t) (W, r) l) as -> by (unfold seat_table; rewrite bool_decide_true by done; cbn [assert_ obind]; by rewrite Hl).
    destruct (names_codes fwd rev d (customers_at a t) l Hdec Hn) as (is' & Hf2 & Hnd' & His); [intros i Hi%elem_of_customers_at; by eapply Hna|].
    destruct (seat_items_ok fwd d t r l Ht0 W B b is' HW Hb Hf2 Hnd') as (W1 & b1 & E1 & HW1 & Hb1); [intros i Hi%His%elem_of_customers_at; eapply Hf; [left|done]|].
    rewrite E1. cbn [obind]. destruct (IH ltac:(intros; apply Hts; by right) W1 (<[d := b1]> B) b1 HW1) as (W' & b' & E' & HW' & Hb'); [by rewrite lookup_insert| |].
    + intros i t' Ht' Hi. rewrite Hb1, decide_False; [eapply Hf; [by right|done]|]. rewrite His, elem_of_customers_at. intros Hi'. assert (t = t') by congruence. by subst.
    + exists W', b'. rewrite insert_insert in HW'. split_and!; [done..|]. intros i t'. rewrite Hb', Hb1. destruct (decide (i ∈ is')) as [Hi|Hi].
      * pose proof Hi as Hi2. apply His, elem_of_customers_at in Hi2. split.
        -- intros [[Hin Ha]|[= <-]]; left; [split; [by right|done]|split; [by left|done]].
        -- intros [[Hin Ha]|Hbi]; [right; congruence|]. assert (b !! i = None) by (eapply Hf; [left|done]). congruence.
      * split.
        -- intros [[Hin Ha]|Hbi]; [left; split; [by right|done]|by right].
        -- intros [[Hin Ha]|Hbi]; [|by right]. apply elem_of_cons in Hin as [->|Hin]; [|by left]. exfalso. apply Hi, His, elem_of_customers_at. done.
Qed.
Lemma seat_domains_ok fwd rev A (cl : clusters) r : decodes fwd rev -> shows rev A cl ->
  (forall d a i t, A !! d = Some a -> a !! i = Some t -> (0 <= t)%Z /\ exists m x, rev !! d = Some m /\ m !! i = Some x) ->
  forall ds, NoDup ds -> (forall d, d ∈ ds -> is_Some (cl !! d)) -> forall W B, world_holds W B -> (forall d, d ∈ ds -> B !! d = Some ∅) ->
  exists W' B', foldM (seat_domain fwd cl) (W, r) ds = Ok (W', r) /\ world_holds W' B' /\ forall d, B' !! d = if decide (d ∈ ds) then A !! d else B !! d.
Proof.
  intros Hdec Hsh HA. induction 1 as [|d ds Hni Hnd IH]; intros Hcl W B HW HB; cbn [foldM].
  - exists W, B. split_and!; [done..|]. intros d. by rewrite decide_False by apply not_elem_of_nil.
  - destruct (Hcl d) as [m Hm]; [by left|]. assert (B !! d = Some ∅) as Hbd by (apply HB; left).
    assert (exists a, A !! d = Some a) as [a Ha].
    { pose proof (sh_nonempty _ _ _ Hsh d m Hm) as Hne. apply map_choose in Hne as (t & l & Hl). destruct (proj1 (sh_tables _ _ _ Hsh d t l)) as (a & Ha & _); eauto. }
    assert (forall t l, m !! t = Some l <-> customers_at a t <> ∅ /\ names_of rev d (customers_at a t) l) as Hmt.
    { intros t l. split.
      - intros Hl. destruct (proj1 (sh_tables _ _ _ Hsh d t l)) as (a' & Ha' & H1 & H2); [eauto|]. assert (a' = a) as -> by congruence. done.
      - intros [H1 H2]. destruct (proj2 (sh_tables _ _ _ Hsh d t l)) as (m' & Hm' & Hl); [by exists a|]. congruence. }
    
    assert (seat_domain fwd cl (W, r) d = foldM (seat_table fwd d m) (W, r) (sorted_keys m)) as ->.
    { unfold seat_domain. cbn [fst]. pose proof (HW d) as Hd. rewrite Hbd in Hd. destruct (W !! d) as [dm|] eqn:Ed; [|done]. cbn [at_ obind].
      destruct Hd as [Hit _]. rewrite bool_decide_true by (by rewrite Hit, dom_empty_L). cbn [assert_ obind]. by rewrite Hm. }
    destruct (seat_tables_ok fwd rev d m a r (sorted_keys m) Hdec (P_base.NoDup_sorted_keys m)) with (W := W) (B := B) (b := ∅ : gmap Z Z) as (W1 & b1 & E1 & HW1 & Hb1).
    + intros i t Hi. by apply (HA d a i t).
    + intros t [l Hl]%P_base.elem_of_sorted_keys. apply Hmt in Hl as Hl'. destruct Hl' as [Hne Hn]. split; [|eauto].
      apply set_choose_L in Hne as [i Hi%elem_of_customers_at]. by apply (HA d a i t).
    + done.
    + done.
    + intros; apply lookup_empty.
    + assert (b1 = a) as ->.
      { apply map_eq. intros i. apply option_eq. intros t. rewrite Hb1, lookup_empty. split; [by intros [[_ ?]|?]|]. intros Hi. left. split; [|done].
        apply P_base.elem_of_sorted_keys. assert (customers_at a t <> ∅) as Hne.
        { intros E. assert (i ∈ customers_at a t) as Hin by by apply elem_of_customers_at. rewrite E in Hin. by apply elem_of_empty in Hin. }
        exists (sorted_set (item_names rev d (customers_at a t))). apply Hmt. split; [done|apply sorted_set_names]. }
      rewrite E1. cbn [obind]. destruct (IH ltac:(intros; apply Hcl; by right) W1 (<[d := a]> B) HW1) as (W' & B' & E' & HW' & HB').
      * intros d' Hd'. rewrite lookup_insert_ne by congruence. apply HB. by right.
      * exists W', B'. split_and!; [done..|]. intros d'. rewrite HB'. destruct (decide (d' ∈ ds)) as [Hin|Hin]; [by rewrite decide_True by (by right)|].
        destruct (decide (d = d')) as [<-|Hne]; [rewrite lookup_insert, decide_True by left; done|]. rewrite lookup_insert_ne by done.
        rewrite decide_False; [done|]. intros [?|?]%elem_of_cons; congruence.
Qed.
Theorem seat_clusters_ok fwd rev A (cl : clusters) W r : decodes fwd rev -> shows rev A cl ->
  (forall d a i t, A !! d = Some a -> a !! i = Some t -> (0 <= t)%Z /\ exists m x, rev !! d = Some m /\ m !! i = Some x) ->
  world_holds W ((fun _ => ∅) <$> A) -> exists W', seat_clusters fwd cl W r = Ok (W', r) /\ world_holds W' A.
Proof.
  intros Hdec Hsh HA HW.
  assert (forall d m, cl !! d = Some m -> is_Some (A !! d)) as Hcl.
  { intros d m Hm. pose proof (sh_nonempty _ _ _ Hsh d m Hm) as Hne. apply map_choose in Hne as (t & l & Hl). destruct (proj1 (sh_tables _ _ _ Hsh d t l)) as (a & Ha & _); eauto. }
  assert (forall d, d ∈ sorted_names cl <-> is_Some (cl !! d)) as Hsn.
  { intros d. unfold sorted_names. rewrite merge_sort_Permutation, elem_of_elements. apply elem_of_dom. }
  destruct (seat_domains_ok fwd rev A cl r Hdec Hsh HA (sorted_names cl) (NoDup_sorted_names cl)) with (W := W) (B := (fun _ => ∅ : gmap Z Z) <$> A) as (W' & B' & E & HW' & HB').
  - intros d. apply Hsn.
  - done.
  - intros d [m Hm]%Hsn. apply Hcl in Hm as [a Ha]. by rewrite lookup_fmap, Ha.
  - exists W'. split; [done|]. assert (B' = A) as <-; [|done]. apply map_eq. intros d. rewrite HB'. case_decide as Hd; [done|]. rewrite lookup_fmap.
    destruct (A !! d) as [a|] eqn:Ha; [|done]. cbn. f_equal. symmetry. apply map_eq. intros i. rewrite lookup_empty. destruct (a !! i) as [t|] eqn:Hi; [|done]. exfalso. apply Hd, Hsn.
    assert (customers_at a t <> ∅) as Hne.
    { intros E'. assert (i ∈ customers_at a t) as Hin by by apply elem_of_customers_at. rewrite E' in Hin. by apply elem_of_empty in Hin. }
    destruct (proj2 (sh_tables _ _ _ Hsh d t (sorted_set (item_names rev d (customers_at a t))))) as (m & Hm & _); [|eauto].
    exists a. split_and!; [done..|]. apply sorted_set_names.
Qed.
