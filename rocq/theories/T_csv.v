(** C33: CSV files. *)
From Coq Require Import String Ascii.
From stdpp Require Import gmap strings list.
From Coq Require Import Lia.
From Verif Require Import M_base M_text M_io M_csv S_schema S_io S_csv P_base P_text P_schema P_io P_csv.
Local Open Scope nat_scope.

(** Reading without column names succeeds with different column names exactly for files that
    consist of a header and rows as wide as the header; the result is the table of the rows.
    Empty lines do not count. *)
Theorem C33_read file df : (from_csv [] file = Ok df /\ NoDup (f_cols df)) <->
  exists ls, file_lines file ls /\
  match full_lines ls with
  | [] => df = Frame [] ∅
  | hd :: ls => exists names rows, header_text hd names /\ NoDup names /\ Forall2 row_text ls rows /\
      Forall (fun row => length row = length names) rows /\ table names rows df
  end.
Proof. apply from_csv_iff. Qed.
Print Assumptions C33_read.

(** A field that can be written and read back: not empty, no comma, no newline, ends in a
    seven-bit character that is not white space. *)
Definition solid (s : string) : Prop :=
  comma ∉ txt s /\ newline ∉ txt s /\ exists c, last (txt s) = Some c /\ ~ blank c /\ code c < 128.
(** A table whose cells can be written and read back; cells of the last of several columns may be empty. *)
Definition solid_table (names : list string) (rows : list (list string)) : Prop :=
  names <> [] /\ NoDup names /\ Forall solid names /\ Forall (fun row => length row = length names) rows /\
  forall row j x, row ∈ rows -> row !! j = Some x -> solid x \/ (x = ""%string /\ 0 < j /\ S j = length names).

Lemma solid_field s : solid s -> field_text (txt s) s.
Proof.
  intros (_ & _ & c & Hl & Hc & H7). apply last_Some in Hl as [body Hb]. exists body, c, []. split_and!; done.
Qed.
Lemma join_separated l : join l = separated_by comma l.
Proof. done. Qed.
Lemma foldM_map {A B} (f : A -> outcome B) l l' : Forall2 (fun a b => f a = Ok b) l l' -> forall acc,
  foldM (fun acc a => let* x := f a in Ok (acc ++ [x])) acc l = Ok (acc ++ l').
Proof.
  induction 1 as [|a b l l' H _ IH]; intros acc; cbn [foldM]; [by rewrite app_nil_r|]. rewrite H. cbn [obind]. rewrite IH. by rewrite <- app_assoc.
Qed.
Lemma separated_no c d l : c <> d -> Forall (fun x => d ∉ x) l -> d ∉ separated_by c l.
Proof.
  intros Hcd. destruct l as [|a l]; [intros _; apply not_elem_of_nil|]. intros [Ha Hl]%Forall_cons. cbn. intros [?|Hin]%elem_of_app; [done|].
  induction Hl as [|b l Hb _ IH]; cbn in Hin; [by apply elem_of_nil in Hin|].
  apply elem_of_cons in Hin as [?|Hin]; [done|]. apply elem_of_app in Hin as [?|?]; [done|]. by apply IH.
Qed.
Lemma lines_of_snoc ls l : lines_of (ls ++ [l]) = lines_of ls ++ l ++ [newline].
Proof. unfold lines_of. rewrite map_app, concat_app. cbn. by rewrite app_nil_r. Qed.

Lemma to_csv_text names rows df : table names rows df -> names <> [] -> Forall (fun row => length row = length names) rows ->
  to_csv df = Ok (lines_of (map (fun r => separated_by comma (map txt r)) (names :: rows))).
Proof.
  intros (Hc & _ & Hd) Hne Hl. unfold to_csv. rewrite Hc. destruct names as [|c names'] eqn:En; [done|]. rewrite <- En in *.
  rewrite (Hd 0 c) by by rewrite En. cbn [from_option id]. rewrite map_length.
  assert (forall k, k <= length rows ->
    foldM (csv_row df) (join (map txt names) ++ [newline]) (seq 0 k) =
    Ok (lines_of (map (fun r => separated_by comma (map txt r)) (names :: take k rows)))) as H.
  { induction k as [|k IH]; intros Hk.
    - cbn. by rewrite app_nil_r.
    - rewrite seq_S, foldM_app, IH by lia. cbn [obind foldM plus]. unfold csv_row. rewrite Hc.
      destruct (lookup_lt_is_Some_2 rows k) as [row Hrow]; [lia|].
      assert (length row = length names) as Hlr by (eapply (proj1 (Forall_forall _ _) Hl), elem_of_list_lookup_2, Hrow).
      rewrite (foldM_map (cell df k) names (map txt row)).
      2:{ apply Forall2_same_length_lookup. split; [by rewrite map_length|]. intros j a y Ha Hy. unfold cell. rewrite (Hd j a Ha). cbn [from_option id].
          change (map (fun row => row !!! j) rows) with ((fun row => row !!! j) <$> rows). rewrite list_lookup_fmap, Hrow. cbn.
          change (map txt row) with (txt <$> row) in Hy. rewrite list_lookup_fmap in Hy. destruct (row !! j) as [x|] eqn:Hx; [|done].
          injection Hy as <-. by rewrite (list_lookup_total_correct _ _ _ Hx). }
      cbn [obind app]. rewrite (take_S_r _ _ _ Hrow). change (names :: take k rows ++ [row]) with ((names :: take k rows) ++ [row]).
      rewrite (map_app (fun r => separated_by comma (map txt r)) (names :: take k rows) [row]). cbn [map]. by rewrite lines_of_snoc. }
  specialize (H (length rows) ltac:(lia)). rewrite firstn_all in H. exact H.
Qed.

Lemma solid_row names rows row : solid_table names rows -> row ∈ rows -> row_text (separated_by comma (map txt row)) row.
Proof.
  intros (Hne & _ & _ & Hl & Hs) Hin. pose proof (proj1 (Forall_forall _ _) Hl _ Hin) as Hlr.
  destruct row as [|x row _] using rev_ind; [by destruct names|]. rewrite app_length in Hlr. cbn in Hlr.
  assert (Forall solid row) as Hrow.
  { apply Forall_forall. intros y Hy. apply elem_of_list_lookup in Hy as [j Hj]. pose proof (lookup_lt_Some _ _ _ Hj) as Hlt.
    destruct (Hs _ j y Hin) as [?|(_ & _ & ?)]; [by rewrite lookup_app_l|done|lia]. }
  assert (Forall (fun raw => comma ∉ raw) (map txt row)) as Hcm.
  { apply Forall_map. eapply Forall_impl; [exact Hrow|]. by intros y (? & _). }
  assert (Forall2 field_text (map txt row) row) as HF.
  { apply Forall2_fmap_l, Forall_Forall2_diag. eapply Forall_impl; [exact Hrow|]. intros y Hy. by apply solid_field. }
  destruct (Hs _ (length row) x Hin) as [Hx|(-> & Hj & _)]; [rewrite lookup_app_r, Nat.sub_diag by lia; done| |].
  - exists (map txt (row ++ [x])). rewrite map_app. split_and!.
    + apply Forall_app. split; [done|]. apply Forall_cons. split; [by destruct Hx|constructor].
    + by destruct row.
    + left. split; [done|]. apply Forall2_app; [done|]. constructor; [by apply solid_field|constructor].
  - exists (map txt row). split_and!; [done|destruct row; [cbn in Hj; lia|done]|]. right. split.
    + rewrite map_app. destruct row as [|y row]; [cbn in Hj; lia|]. cbn. rewrite map_app, concat_app. cbn. by rewrite app_assoc.
    + by exists row.
Qed.

(** Writing a table and reading the file gives the table back. *)
Theorem C33_round_trip names rows df : solid_table names rows -> table names rows df ->
  exists file, to_csv df = Ok file /\ from_csv [] file = Ok df.
Proof.
  intros Hs Ht. pose proof Hs as (Hne & Hnd & Hn & Hl & Hcells). exists (lines_of (map (fun r => separated_by comma (map txt r)) (names :: rows))).
  split; [by apply to_csv_text|]. 
  assert (Forall (fun l => newline ∉ l /\ l <> []) (map (fun r => separated_by comma (map txt r)) (names :: rows))) as HF.
  { apply Forall_map, Forall_forall. intros r Hr. apply elem_of_cons in Hr as [->|Hr].
    - split; [apply separated_no; [done|]; apply Forall_map; eapply Forall_impl; [exact Hn|]; by intros y (_ & ? & _)|].
      destruct names as [|n names]; [done|]. apply Forall_cons in Hn as [(_ & _ & c & Hc & _) _]. cbn. by destruct (txt n).
    - destruct (solid_row names rows r Hs Hr) as (raws & _ & Hrn & Hr'). split.
      + apply separated_no; [done|]. apply Forall_map, Forall_forall. intros x Hx. apply elem_of_list_lookup in Hx as [j Hj].
        destruct (Hcells _ _ _ Hr Hj) as [(_ & ? & _)|(-> & _)]; [done|apply not_elem_of_nil].
      + destruct Hr' as [[-> HF]|(-> & _)]; [|by destruct (separated_by comma raws)].
        apply separated_nonempty; [done|by eapply fields_last]. }
  apply from_csv_iff. exists (map (fun r => separated_by comma (map txt r)) (names :: rows)). split.
  - split; [|by left]. eapply Forall_impl; [exact HF|]. by intros l [? _].
  - assert (full_lines (map (fun r => separated_by comma (map txt r)) (names :: rows)) = map (fun r => separated_by comma (map txt r)) (names :: rows)) as ->.
    { revert HF. generalize (map (fun r => separated_by comma (map txt r)) (names :: rows)). induction 1 as [|l ls [_ Hln] _ IH]; [done|].
      unfold full_lines. rewrite filter_cons, decide_True by done. by f_equal. }
    cbn [map]. exists names, rows. split_and!; try done.
    + exists (map txt names). split_and!.
      * apply Forall_map. eapply Forall_impl; [exact Hn|]. by intros y (? & _).
      * by destruct names.
      * apply Forall2_fmap_l, Forall_Forall2_diag. eapply Forall_impl; [exact Hn|]. intros y Hy. by apply solid_field.
      * by left.
    + apply Forall2_fmap_l, Forall_Forall2_diag, Forall_forall. intros r Hr. by eapply solid_row.
Qed.
Print Assumptions C33_round_trip.

Local Ltac solve_solid := split; [by apply (bool_decide_unpack _)|]; split; [by apply (bool_decide_unpack _)|];
  eexists; split; [reflexivity|]; split; [intros [Hb|Hb]; vm_compute in Hb; lia|by apply Nat.ltb_lt].

(** ** Rows of the wrong width *)
Lemma csv_row_width g cols d line cells : row_text line cells ->
  (length cells < length cols -> csv_line g (Frame cols d, false) line = AssertFail) /\
  (length cols < length cells -> csv_line g (Frame cols d, false) line = UB).
Proof.
  intros (raws & Hcm & Hrn & Hr).
  assert (line <> []) as Hne.
  { destruct Hr as [[-> HF]|(-> & _)]; [|by destruct (separated_by comma raws)]. apply separated_nonempty; [done|by eapply fields_last]. }
  unfold csv_line. destruct line as [|c0 line0] eqn:Eline; [done|]. rewrite <- Eline in *. clear c0 line0 Eline. cbn [andb].
  destruct Hr as [[Hline HF]|(Hline & cells' & -> & HF)].
  - pose proof (fields_last _ _ HF Hrn) as Hl. rewrite Hline, getlines_separated by done. rewrite (row_fields_run cols _ cells HF) by lia. split; intros Hw.
    + rewrite decide_True by lia. cbn [obind]. rewrite bool_decide_eq_false_2 by by apply last_separated. cbn [obind f_cols].
      rewrite bool_decide_eq_false_2 by lia. done.
    + by rewrite decide_False by lia.
  - rewrite Hline, getlines_separated_end by done. rewrite app_length. cbn [length]. rewrite (row_fields_run cols _ cells' HF) by lia. split; intros Hw.
    + rewrite decide_True by lia. cbn [obind]. rewrite last_snoc, bool_decide_eq_true_2 by done. unfold put. cbn [f_cols f_data].
      destruct (cols !! (0 + length cells')) as [c|] eqn:Hc; [|apply lookup_ge_None in Hc; lia]. cbn [idx_ obind f_cols].
      rewrite bool_decide_eq_false_2 by lia. done.
    + case_decide; [|done]. cbn [obind]. rewrite last_snoc, bool_decide_eq_true_2 by done. unfold put. cbn [f_cols f_data].
      destruct (cols !! (0 + length cells')) as [c|] eqn:Hc; [apply lookup_lt_Some in Hc; lia|]. done.
Qed.

(** A file that is in order up to some row: header, rows as wide as the header. *)
Definition good_start (ls : list text) (names : list string) : Prop :=
  exists hd ls', full_lines ls = hd :: ls' /\ header_text hd names /\
    exists rows, Forall2 row_text ls' rows /\ Forall (fun row => length row = length names) rows.

Lemma good_start_run ls names : good_start ls names -> exists d, foldM (csv_line false) (Frame [] ∅, true) ls = Ok (Frame names d, false).
Proof.
  intros (hd & ls' & Hf & Hh & rows & HF & Hl).
  destruct (proj2 (csv_file_iff ls (Frame names (foldl (fill names) (f_data (enter_names (Frame [] ∅) names)) rows)))) as [b Hb].
  { rewrite Hf. exists names, rows. split_and!; done. }
  rewrite Hb. eexists. destruct b; [|done]. exfalso.
  assert (forall ls st st', foldM (csv_line false) st ls = Ok st' -> st.2 = false -> st'.2 = false) as Hfalse.
  { clear. induction ls as [|l ls IH]; intros st st'; cbn [foldM]; [by intros [= ->]|]. intros H Hs. apply obind_Ok in H as (st1 & H1 & H2).
    eapply IH; [exact H2|]. destruct st as [[cs d] b]. cbn in Hs. subst b. destruct l as [|c l]; [by injection H1 as <-|]. destruct st1 as [df1 b1].
    by apply csv_row_line_iff in H1 as (? & _ & _ & _ & ->). }
  revert Hb Hf. clear -Hfalse. generalize (Frame names (foldl (fill names) (f_data (enter_names (Frame [] ∅) names)) rows)).
  induction ls as [|l ls IH]; intros df Hb Hf; [done|]. cbn [foldM] in Hb. destruct l as [|c l].
  - cbn [csv_line obind] in Hb. by eapply IH.
  - apply obind_Ok in Hb as ([df1 b1] & H1 & H2). apply csv_header_line_iff in H1 as (? & _ & _ & ->); [|done]. by apply Hfalse in H2.
Qed.

(** A row that is too short stops the program; a row that is too wide is undefined behaviour,
    whatever follows. *)
Theorem C33_width file ls1 line ls2 names cells : file_lines file (ls1 ++ line :: ls2) -> good_start ls1 names -> row_text line cells ->
  (length cells < length names -> from_csv [] file = AssertFail) /\
  (length names < length cells -> from_csv [] file = UB).
Proof.
  intros Hls Hg Hr. destruct (good_start_run _ _ Hg) as [d Hd]. unfold from_csv. rewrite bool_decide_eq_false_2 by (intros H; by apply H).
  rewrite (file_lines_getlines _ _ Hls), foldM_app, Hd. cbn [obind foldM]. destruct (csv_row_width false names d line cells Hr) as [H1 H2].
  split; intros Hw; [by rewrite H1 by done|by rewrite H2 by done].
Qed.
Print Assumptions C33_width.
Theorem C33_width_refuted : exists file ls1 line ls2 names cells, file_lines file (ls1 ++ line :: ls2) /\ good_start ls1 names /\ row_text line cells /\
  length cells <> length names /\ from_csv [] file <> AssertFail.
Proof.
  set (l1 := txt "a,b"). set (l2 := txt "1,2,3").
  assert (file_lines (l1 ++ [newline] ++ l2 ++ [newline]) ([l1] ++ [l2])) as Hf.
  { split; [|by left]. repeat (apply Forall_cons; split); [| |constructor]; by apply (bool_decide_unpack _). }
  assert (good_start [l1] ["a"; "b"]%string) as Hg.
  { exists l1, []. split; [done|]. split; [|exists []; split; constructor]. exists [txt "a"; txt "b"]. split_and!; [|done| |by left].
    - repeat (apply Forall_cons; split); [| |constructor]; by apply (bool_decide_unpack _).
    - repeat (constructor; [apply solid_field; solve_solid|]). constructor. }
  assert (row_text l2 ["1"; "2"; "3"]%string) as Hr.
  { exists [txt "1"; txt "2"; txt "3"]. split_and!; [|done|left; split; [done|]].
    - repeat (apply Forall_cons; split); [| | |constructor]; by apply (bool_decide_unpack _).
    - repeat (constructor; [apply solid_field; solve_solid|]). constructor. }
  eexists _, [l1], l2, [], _, _. split; [exact Hf|]. split; [exact Hg|]. split; [exact Hr|]. split; [done|].
  destruct (C33_width _ _ _ _ _ _ Hf Hg Hr) as [_ H]. by rewrite H by (cbn; lia).
Qed.
Print Assumptions C33_width_refuted.

(** An empty field that is not the last of its row is undefined behaviour. *)
Theorem C33_empty_field_refuted : exists names rows df file, NoDup names /\ table names rows df /\
  Forall (fun row => length row = length names) rows /\
  (forall x, x ∈ names \/ (exists row, row ∈ rows /\ x ∈ row) -> comma ∉ txt x /\ newline ∉ txt x) /\
  to_csv df = Ok file /\ from_csv [] file = UB.
Proof.
  exists ["a"; "b"]%string, [["" ; "1"]]%string, (Frame ["a"; "b"]%string (<["a" := [""]]> (<["b" := ["1"]]> ∅)))%string, (txt "a,b" ++ newline :: txt ",1" ++ [newline]).
  split_and!; [by apply (bool_decide_unpack _)| |by repeat constructor| |by vm_compute|by vm_compute].
  - split_and!; [done| |].
    + intros c. cbn [f_data]. rewrite !lookup_insert_is_Some, lookup_empty. rewrite !elem_of_cons, elem_of_nil.
      destruct (decide (c = "a"%string)) as [->|?]; [naive_solver|]. destruct (decide (c = "b"%string)) as [->|?]; [naive_solver|].
      split; [intros [?|[_ [?|[_ [? ?]]]]]; [by left; symmetry|by right; left; symmetry|done]|]. intros [?|[?|[]]]; done.
    + intros [|[|j]] c Hj; try done; injection Hj as <-; done.
  - intros x [H|(row & Hrow & H)].
    + apply elem_of_cons in H as [->|H]; [by split; apply (bool_decide_unpack _)|]. apply elem_of_list_singleton in H as ->. by split; apply (bool_decide_unpack _).
    + apply elem_of_list_singleton in Hrow as ->. apply elem_of_cons in H as [->|H]; [by split; apply (bool_decide_unpack _)|].
      apply elem_of_list_singleton in H as ->. by split; apply (bool_decide_unpack _).
Qed.
Print Assumptions C33_empty_field_refuted.

(** An empty cell of a table with one column is lost. *)
Theorem C33_one_column_refuted : exists df file df', f_cols df = ["a"%string] /\ f_data df !! "a"%string = Some ["1"; ""; "2"]%string /\
  to_csv df = Ok file /\ from_csv [] file = Ok df' /\ f_data df' !! "a"%string = Some ["1"; "2"]%string.
Proof.
  eexists (Frame ["a"%string] {[ "a" := ["1"; ""; "2"] ]})%string, _, _. split; [done|]. split; [done|].
  split; [vm_compute; reflexivity|]. split; [vm_compute; reflexivity|]. done.
Qed.
(** With column names given, a first row that is too short is accepted. *)
Theorem C33_given_names_refuted : exists names line df, names = ["a"; "b"]%string /\ row_text line ["1"]%string /\
  from_csv names (line ++ [newline]) = Ok df /\ f_data df !! "a"%string = Some ["1"]%string /\ f_data df !! "b"%string = Some [].
Proof.
  eexists ["a"; "b"]%string, (txt "1"), _. split; [done|]. split; [|split; [vm_compute; reflexivity|done]].
  exists [txt "1"]. split_and!; [|done|left; split; [done|]].
  - apply Forall_cons; split; [|constructor]. by apply (bool_decide_unpack _).
  - constructor; [apply solid_field; solve_solid|constructor].
Qed.
Print Assumptions C33_given_names_refuted.

(** A table with two columns, an empty last cell and a field with inner blanks. *)
Example C33_solid_case : solid_table ["id"; "name"]%string [["1"; "x y"]; ["2"; ""]]%string.
Proof.
  assert (forall s : string, s ∈ ["id"; "name"; "1"; "x y"; "2"]%string -> solid s) as Hs.
  { intros s Hin. repeat (apply elem_of_cons in Hin as [->|Hin]; [solve_solid|]). by apply elem_of_nil in Hin. }
  split_and!; [done|by apply (bool_decide_unpack _)| |by repeat constructor|].
  - apply Forall_forall. intros s Hin. apply Hs. apply elem_of_cons in Hin as [->|Hin%elem_of_list_singleton]; [|subst s]; by apply (bool_decide_unpack _).
  - intros row j x Hrow Hx. apply elem_of_cons in Hrow as [->|Hrow%elem_of_list_singleton]; [|subst row].
    + left. apply Hs. destruct j as [|[|j]]; cbn in Hx; [injection Hx as <-; by apply (bool_decide_unpack _)..|done].
    + destruct j as [|[|j]]; cbn in Hx; [injection Hx as <-; left; apply Hs; by apply (bool_decide_unpack _)| |done].
      injection Hx as <-. right. cbn. split_and!; [done|lia|done].
Qed.
Example C33_round_trip_case : exists df, from_csv [] (txt "id,name" ++ newline :: txt "1,x y" ++ newline :: txt "2," ++ [newline]) = Ok df /\
  f_cols df = ["id"; "name"]%string /\ f_data df !! "id"%string = Some ["1"; "2"]%string /\ f_data df !! "name"%string = Some ["x y"; ""]%string.
Proof. eexists. split; [vm_compute; reflexivity|done]. Qed.
