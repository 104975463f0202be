(** Proofs about CSV files. *)
From Coq Require Import String Ascii.
From stdpp Require Import gmap strings list.
From Coq Require Import Lia.
From Verif Require Import M_base M_text M_io M_csv S_schema S_io S_csv P_base P_text P_schema P_io.
Local Open Scope nat_scope.

Lemma blank_iff c : isspace c = true <-> blank c.
Proof.
  unfold isspace, blank. rewrite orb_true_iff, andb_true_iff, Nat.eqb_eq, !Nat.leb_le. done.
Qed.
Lemma blank7 c : blank c -> code c < 128.
Proof. unfold blank. lia. Qed.
Lemma ascii7_iff c : ascii7 c = true <-> code c < 128.
Proof. unfold ascii7. apply Nat.ltb_lt. Qed.

Lemma strip_back_iff l t : strip_back l = Ok t <->
  exists sp c b, l = sp ++ t /\ t = c :: b /\ Forall blank sp /\ ~ blank c /\ code c < 128.
Proof.
  induction l as [|x l IH]; cbn [strip_back].
  { split; [done|]. intros (sp & c & b & H & -> & _). by destruct sp. }
  destruct (ascii7 x) eqn:H7.
  2:{ split; [done|]. intros (sp & c & b & H & -> & Hsp & Hc & H8). exfalso. destruct sp as [|y sp]; injection H as -> _.
      - apply ascii7_iff in H8. congruence.
      - apply Forall_cons in Hsp as [Hy _]. apply blank7, ascii7_iff in Hy. congruence. }
  destruct (isspace x) eqn:Hx.
  - apply blank_iff in Hx. rewrite IH. split.
    + intros (sp & c & b & -> & -> & Hsp & Hc & H8). exists (x :: sp), c, b. split_and!; try done. by constructor.
    + intros (sp & c & b & H & -> & Hsp & Hc & H8). destruct sp as [|y sp]; injection H as -> H; [done|]. subst l.
      apply Forall_cons in Hsp as [_ Hsp]. exists sp, c, b. split_and!; done.
  - assert (~ blank x) as Hb by (rewrite <- blank_iff; congruence). split.
    + intros [= <-]. exists [], x, l. split_and!; try done. by apply ascii7_iff.
    + intros (sp & c & b & H & -> & Hsp & Hc & H8). destruct sp as [|y sp]; [by injection H as -> ->|]. injection H as -> H.
      apply Forall_cons in Hsp as [? _]. done.
Qed.
Lemma Forall_rev' {A} (P : A -> Prop) l : Forall P l -> Forall P (rev l).
Proof. rewrite !Forall_forall. intros H x Hx. apply H. rewrite elem_of_list_In in *. by apply in_rev. Qed.
Lemma rstrip_iff raw p : rstrip raw = Ok p <-> field_text raw (str p).
Proof.
  unfold rstrip, field_text. rewrite txt_str. split.
  - intros H. apply obind_Ok in H as (l & H & [= <-]). apply strip_back_iff in H as (sp & c & b & Hr & -> & Hsp & Hc & H7).
    exists (rev b), c, (rev sp). split_and!; try done.
    + rewrite <- (rev_involutive raw), Hr, rev_app_distr. simpl. by rewrite <- app_assoc.
    + by apply Forall_rev'.
  - intros (body & c & sp & -> & -> & Hsp & Hc & H7).
    assert (strip_back (rev (body ++ c :: sp)) = Ok (c :: rev body)) as ->.
    { apply strip_back_iff. exists (rev sp), c, (rev body). split_and!; try done; [|by apply Forall_rev'].
      rewrite rev_app_distr. simpl. by rewrite <- app_assoc. }
    cbn [obind]. simpl. by rewrite rev_involutive.
Qed.
Lemma field_rstrip raw v : field_text raw v -> rstrip raw = Ok (txt v).
Proof. intros H. apply rstrip_iff. by rewrite str_txt. Qed.
Lemma field_nonempty raw v : field_text raw v -> raw <> [] /\ v <> ""%string.
Proof. intros (body & c & sp & -> & Hv & _). split; [by destruct body|]. intros ->. by destruct body. Qed.

(** Cells entered below their columns. *)
Definition fill (cols : list string) (d : gmap string (list string)) (cells : list string) : gmap string (list string) :=
  foldl (fun d cx => push d cx.1 cx.2) d (zip cols cells).

Lemma row_fields_run cols parts cells : Forall2 field_text parts cells -> forall d i, i <= length cols ->
  foldM row_field (Frame cols d, i) parts =
  if decide (i + length cells <= length cols) then Ok (Frame cols (fill (drop i cols) d cells), i + length cells) else UB.
Proof.
  induction 1 as [|raw v parts cells Hv _ IH]; intros d i Hi; cbn [foldM length].
  { rewrite decide_True by lia. unfold fill. by rewrite zip_with_nil_r, Nat.add_0_r. }
  unfold row_field at 1. rewrite (field_rstrip _ _ Hv). cbn [obind]. rewrite str_txt. unfold put. cbn [f_cols f_data].
  destruct (cols !! i) as [c|] eqn:Hc; cbn [idx_ obind].
  - pose proof (lookup_lt_Some _ _ _ Hc) as Hlt. rewrite IH by lia. rewrite (drop_S _ _ _ Hc).
    replace (S i + length cells) with (i + S (length cells)) by lia. done.
  - apply lookup_ge_None in Hc. rewrite decide_False by lia. done.
Qed.
Lemma row_fields_inv parts : forall st st', foldM row_field st parts = Ok st' -> exists cells, Forall2 field_text parts cells.
Proof.
  induction parts as [|p parts IH]; intros [df i] st'; cbn [foldM]; [eauto|]. intros H.
  apply obind_Ok in H as (st1 & H1 & H2). unfold row_field in H1. apply obind_Ok in H1 as (q & Hq & _).
  destruct (IH _ _ H2) as [cells HF]. exists (str q :: cells). constructor; [by apply rstrip_iff|done].
Qed.

Lemma fill_snoc cols d cells c x : length cells = length cols -> fill (cols ++ [c]) d (cells ++ [x]) = push (fill cols d cells) c x.
Proof.
  intros Hl. unfold fill. rewrite zip_with_app by done. by rewrite foldl_app.
Qed.
Lemma fill_prefix cols cols' d cells : length cells = length cols -> fill (cols ++ cols') d cells = fill cols d cells.
Proof.
  intros Hl. unfold fill. f_equal. rewrite <- (app_nil_r cells) at 1. rewrite zip_with_app by done. by rewrite zip_with_nil_r, app_nil_r.
Qed.

Lemma last_separated raws : Forall (fun raw => comma ∉ raw) raws -> raws <> [] -> last raws <> Some [] ->
  last (separated_by comma raws) <> Some comma.
Proof.
  intros HF Hne Hl. destruct raws as [|x raws] using rev_ind; [done|]. clear IHraws. rewrite last_snoc in Hl.
  apply Forall_app in HF as [_ HF]. apply Forall_cons in HF as [HF _].
  destruct x as [|c x] using rev_ind; [done|]. clear IHx.
  assert (exists p, separated_by comma (raws ++ [x ++ [c]]) = p ++ x ++ [c]) as [p ->].
  { destruct raws as [|y raws]; [exists []; simpl; by rewrite app_nil_r|].
    exists (y ++ concat (map (cons comma) raws) ++ [comma]). simpl. rewrite map_app, concat_app. simpl. rewrite app_nil_r, <- !app_assoc. done. }
  rewrite app_assoc, last_snoc. intros [= ->]. apply HF, elem_of_app. right. by left.
Qed.
Lemma separated_nonempty raws : raws <> [] -> last raws <> Some [] -> separated_by comma raws <> [].
Proof. destruct raws as [|[|c a] [|b raws]]; done. Qed.
Lemma fields_last raws cells : Forall2 field_text raws cells -> raws <> [] -> last raws <> Some [].
Proof.
  intros HF Hne Hl. apply last_Some in Hl as [l' ->]. apply Forall2_app_inv_l in HF as (c1 & c2 & _ & HF & _).
  inversion HF as [|? v ? ? Hv]; subst. by apply field_nonempty in Hv as [? _].
Qed.

Lemma split_last {A} (l : list A) x : l !! (length l - 1) = Some x -> exists l', l = l' ++ [x] /\ length l' = length l - 1.
Proof.
  intros H. destruct l as [|y l] using rev_ind; [done|]. clear IHl. rewrite app_length in *. simpl in *.
  replace (length l + 1 - 1) with (length l) in * by lia. exists l. rewrite lookup_app_r, Nat.sub_diag in H by lia. simpl in H. injection H as ->. done.
Qed.
(** A line that is not the header. *)
Lemma csv_row_line_iff g cols d line df' b : line <> [] ->
  csv_line g (Frame cols d, false) line = Ok (df', b) <->
  exists cells, row_text line cells /\ length cells = length cols /\ df' = Frame cols (fill cols d cells) /\ b = false.
Proof.
  intros Hne. unfold csv_line. destruct line as [|c0 line0] eqn:Eline; [done|]. rewrite <- Eline in *. clear c0 line0 Eline. cbn [andb].
  split.
  - intros H. apply obind_Ok in H as ([df1 i] & H1 & H). destruct (row_fields_inv _ _ _ H1) as [cells HF].
    rewrite (row_fields_run cols _ cells HF) in H1 by lia. destruct (decide _) as [Hle|]; [|done]. injection H1 as <- <-.
    rewrite drop_0 in H. apply obind_Ok in H as ([df2 i2] & H2 & H). apply obind_Ok in H as ([] & Ha%assert_Ok & [= <- <-]).
    apply bool_decide_eq_true in Ha.
    pose proof (getlines_no_delim comma line) as Hnd.
    destruct (getlines_inv comma line []) as (Hg & Hc); [by apply not_elem_of_nil|by left|]. cbv zeta in Hc. fold (getlines comma line) in Hc, Hg.
    simpl (rev [] ++ line) in Hc.
    destruct Hc as [[Hc Hl]|Hc].
    + rewrite bool_decide_eq_false_2 in H2 by (rewrite Hc; by apply last_separated). injection H2 as <- <-. cbn [f_cols] in Ha.
      exists cells. split_and!; try done. exists (getlines comma line). split_and!; try done. by left.
    + rewrite bool_decide_eq_true_2 in H2 by (rewrite Hc; apply last_snoc). unfold put in H2. cbn [f_cols f_data] in H2.
      apply obind_Ok in H2 as (c & Hi%idx_Ok & [= <- <-]). cbn [f_cols] in Ha. exists (cells ++ [""%string]). split_and!; try done.
      * exists (getlines comma line). split_and!; try done. right. split; [done|]. by exists cells.
      * rewrite app_length. simpl. lia.
      * f_equal. simpl in Ha. assert (exists cols0, cols = cols0 ++ [c] /\ length cols0 = length cells) as (cols0 & -> & Hl0).
        { destruct (split_last cols c) as (l' & Hl' & Hl2); [rewrite <- Hi; f_equal; lia|]. exists l'. split; [done|lia]. }
        rewrite fill_snoc by done. f_equal. by apply fill_prefix.
  - intros (cells & (raws & Hcm & Hrn & Hr) & Hlen & -> & ->).
    destruct Hr as [[Hline HF]|(Hline & cells' & -> & HF)].
    + pose proof (fields_last _ _ HF Hrn) as Hl. rewrite Hline, getlines_separated by done. rewrite (row_fields_run cols _ cells HF) by lia.
      rewrite decide_True by lia. cbn [obind]. rewrite bool_decide_eq_false_2 by by apply last_separated. cbn [obind f_cols].
      rewrite bool_decide_eq_true_2 by done. by rewrite drop_0.
    + rewrite Hline, getlines_separated_end by done. rewrite app_length in Hlen. simpl in Hlen. rewrite (row_fields_run cols _ cells' HF) by lia.
      rewrite decide_True by lia. cbn [obind]. rewrite last_snoc, bool_decide_eq_true_2 by done. unfold put. cbn [f_cols f_data].
      destruct (cols !! (0 + length cells')) as [c|] eqn:Hc; [|apply lookup_ge_None in Hc; lia]. cbn [idx_ obind f_cols].
      rewrite bool_decide_eq_true_2 by lia. cbn [assert_ obind]. rewrite drop_0. do 3 f_equal.
      assert (exists cols0, cols = cols0 ++ [c] /\ length cols0 = length cells') as (cols0 & -> & Hl0).
      { destruct (split_last cols c) as (l' & Hl' & Hl2); [rewrite <- Hc; f_equal; lia|]. exists l'. split; [done|lia]. }
      rewrite fill_snoc by done. f_equal. by apply fill_prefix.
Qed.

Lemma csv_rows_iff g cols lines : forall d df' b,
  foldM (csv_line g) (Frame cols d, false) lines = Ok (df', b) <->
  exists rows, Forall2 row_text (full_lines lines) rows /\ Forall (fun row => length row = length cols) rows /\
    df' = Frame cols (foldl (fill cols) d rows) /\ b = false.
Proof.
  induction lines as [|line lines IH]; intros d df' b; cbn [foldM].
  { split; [intros [= <- <-]; exists []; split_and!; try done; constructor|]. intros (rows & HF & _ & -> & ->). by inversion HF. }
  unfold full_lines. rewrite filter_cons. fold (full_lines lines). destruct (decide (line <> [])) as [Hne|He].
  - split.
    + intros H. apply obind_Ok in H as ([df1 b1] & H1 & H). apply csv_row_line_iff in H1 as (cells & Hr & Hl & -> & ->); [|done].
      apply IH in H as (rows & HF & Hls & -> & ->). exists (cells :: rows). split_and!; [by constructor|by constructor|done|done].
    + intros (rows & HF & Hls & -> & ->). inversion HF as [|? cells ? rows' Hr HF']; subst. apply Forall_cons in Hls as [Hl Hls].
      rewrite (proj2 (csv_row_line_iff g cols d line _ _ Hne)) by eauto. cbn [obind]. apply IH. eauto.
  - assert (line = []) as -> by (destruct line; [done|by destruct He]). cbn [csv_line obind]. apply IH.
Qed.

Definition enter_names (df : frame) (names : list string) : frame :=
  Frame (f_cols df ++ names) (foldl (fun m c => <[c := []]> m) (f_data df) names).
Lemma header_fields_iff parts : forall df df',
  foldM header_field df parts = Ok df' <-> exists names, Forall2 field_text parts names /\ df' = enter_names df names.
Proof.
  induction parts as [|p parts IH]; intros df df'; cbn [foldM].
  { split; [intros [= <-]; exists []; split; [done|]; unfold enter_names; rewrite app_nil_r; by destruct df|].
    intros (names & HF & ->). inversion HF; subst. unfold enter_names. rewrite app_nil_r. by destruct df. }
  split.
  - intros H. apply obind_Ok in H as (df1 & H1 & H). unfold header_field in H1. apply obind_Ok in H1 as (q & Hq & [= <-]).
    apply IH in H as (names & HF & ->). exists (str q :: names). split; [constructor; [by apply rstrip_iff|done]|].
    unfold enter_names. cbn. by rewrite <- app_assoc.
  - intros (names & HF & ->). inversion HF as [|? v ? names' Hv HF']; subst. unfold header_field at 1. rewrite (field_rstrip _ _ Hv).
    cbn [obind]. rewrite str_txt. apply IH. exists names'. split; [done|]. unfold enter_names. cbn. by rewrite <- app_assoc.
Qed.
Lemma csv_header_line_iff line df' b : line <> [] ->
  csv_line false (Frame [] ∅, true) line = Ok (df', b) <-> exists names, header_text line names /\ df' = enter_names (Frame [] ∅) names /\ b = false.
Proof.
  intros Hne. unfold csv_line. destruct line as [|c0 line0] eqn:Eline; [done|]. rewrite <- Eline in *. clear c0 line0 Eline. cbn [andb negb].
  split.
  - intros H. apply obind_Ok in H as (df1 & H1 & [= <- <-]). apply header_fields_iff in H1 as (names & HF & ->).
    exists names. split_and!; try done. pose proof (getlines_no_delim comma line) as Hnd.
    destruct (getlines_inv comma line []) as (Hg & Hc); [by apply not_elem_of_nil|by left|]. cbv zeta in Hc. fold (getlines comma line) in Hc, Hg.
    simpl (rev [] ++ line) in Hc. exists (getlines comma line). split_and!; try done. destruct Hc as [[Hc _]|Hc]; eauto.
  - intros (names & (raws & Hcm & Hrn & HF & Hl) & -> & ->).
    assert (getlines comma line = raws) as ->.
    { destruct Hl as [-> | ->]; [apply getlines_separated; [done|done|by eapply fields_last]|by apply getlines_separated_end]. }
    rewrite (proj2 (header_fields_iff raws (Frame [] ∅) _)) by eauto. done.
Qed.
(** Empty lines before the header are skipped too. *)
Lemma csv_file_iff lines df : (exists b, foldM (csv_line false) (Frame [] ∅, true) lines = Ok (df, b)) <->
  match full_lines lines with
  | [] => df = Frame [] ∅
  | hd :: ls => exists names rows, header_text hd names /\ Forall2 row_text ls rows /\
      Forall (fun row => length row = length names) rows /\
      df = Frame names (foldl (fill names) (f_data (enter_names (Frame [] ∅) names)) rows)
  end.
Proof.
  induction lines as [|line lines IH]; cbn [foldM].
  { split; [by intros [b [= <- <-]]|]. cbn. intros ->. eauto. }
  unfold full_lines. rewrite filter_cons. fold (full_lines lines). destruct (decide (line <> [])) as [Hne|He].
  - split.
    + intros [b H]. apply obind_Ok in H as ([df1 b1] & H1 & H). apply csv_header_line_iff in H1 as (names & Hh & -> & ->); [|done].
      unfold enter_names in H. cbn [f_cols app] in H. apply csv_rows_iff in H as (rows & HF & Hls & -> & ->). exists names, rows. split_and!; done.
    + intros (names & rows & Hh & HF & Hls & ->). exists false. rewrite (proj2 (csv_header_line_iff line _ _ Hne)) by eauto. cbn [obind].
      unfold enter_names at 1. cbn [f_cols app]. apply csv_rows_iff. exists rows. split_and!; done.
  - assert (line = []) as -> by (destruct line; [done|by destruct He]). cbn [csv_line obind]. apply IH.
Qed.

(** ** Columns *)
Lemma names_lookup names : forall (m : gmap string (list string)) c,
  foldl (fun m c => <[c := []]> m) m names !! c = if decide (c ∈ names) then Some [] else m !! c.
Proof.
  induction names as [|n names IH]; intros m c; cbn [foldl]; [by rewrite decide_False by apply not_elem_of_nil|].
  rewrite IH. destruct (decide (c ∈ names)) as [Hin|Hin].
  - rewrite decide_True by by right. done.
  - destruct (decide (c = n)) as [->|Hne]; [rewrite decide_True by left; apply lookup_insert|].
    rewrite lookup_insert_ne by done. rewrite decide_False; [done|]. by intros [?|?]%elem_of_cons.
Qed.
Lemma fill_lookup cols : NoDup cols -> forall d cells c, length cells = length cols ->
  (forall j, cols !! j = Some c -> fill cols d cells !! c = Some (default [] (d !! c) ++ [cells !!! j])) /\
  (c ∉ cols -> fill cols d cells !! c = d !! c).
Proof.
  induction 1 as [|x cols Hx Hnd IH]; intros d cells c Hl; [by split; [intros []|]|].
  destruct cells as [|y cells]; [done|]. injection Hl as Hl. change (fill (x :: cols) d (y :: cells)) with (fill cols (push d x y) cells).
  destruct (IH (push d x y) cells c Hl) as [H1 H2]. split.
  - intros [|j] Hj; simpl in Hj.
    + injection Hj as ->. rewrite H2 by done. rewrite push_lookup, decide_True by done. done.
    + rewrite (H1 j Hj). rewrite push_lookup, decide_False; [done|]. intros ->. apply Hx. by eapply elem_of_list_lookup_2.
  - intros [Hne Hc]%not_elem_of_cons. rewrite H2 by done. by rewrite push_lookup, decide_False by done.
Qed.
Lemma fills_lookup cols rows : NoDup cols -> Forall (fun row => length row = length cols) rows -> forall d c,
  (forall j x, cols !! j = Some c -> d !! c = Some x -> foldl (fill cols) d rows !! c = Some (x ++ map (fun row => row !!! j) rows)) /\
  (c ∉ cols -> foldl (fill cols) d rows !! c = d !! c).
Proof.
  intros Hnd. induction 1 as [|row rows Hl _ IH]; intros d c; cbn [foldl].
  { split; [|done]. intros j x _ ->. by rewrite app_nil_r. }
  destruct (fill_lookup cols Hnd d row c Hl) as [H1 H2]. destruct (IH (fill cols d row) c) as [I1 I2]. split.
  - intros j x Hj Hx. rewrite (I1 j (x ++ [row !!! j])); [|done|by rewrite (H1 j Hj), Hx]. cbn [map]. by rewrite <- app_assoc.
  - intros Hc. by rewrite I2, H2.
Qed.
Lemma table_of names rows : NoDup names -> Forall (fun row => length row = length names) rows ->
  table names rows (Frame names (foldl (fill names) (f_data (enter_names (Frame [] ∅) names)) rows)).
Proof.
  intros Hnd Hl. unfold enter_names. cbn [f_data f_cols app]. split; [done|]. cbn [f_data f_cols].
  assert (forall c, c ∈ names -> foldl (fun m c => <[c := []]> m) (∅ : gmap string (list string)) names !! c = Some []) as H0.
  { intros c Hc. by rewrite names_lookup, decide_True. }
  split.
  - intros c. destruct (fills_lookup names rows Hnd Hl (foldl (fun m c => <[c := []]> m) ∅ names) c) as [H1 H2]. split.
    + intros Hs. destruct (decide (c ∈ names)) as [|Hn]; [done|]. rewrite H2, names_lookup, decide_False in Hs by done. by destruct Hs.
    + intros Hc. apply elem_of_list_lookup in Hc as Hj. destruct Hj as [j Hj]. rewrite (H1 j [] Hj (H0 c Hc)). eauto.
  - intros j c Hj. destruct (fills_lookup names rows Hnd Hl (foldl (fun m c => <[c := []]> m) ∅ names) c) as [H1 _].
    rewrite (H1 j [] Hj); [done|]. apply H0. by eapply elem_of_list_lookup_2.
Qed.
Lemma table_unique names rows df df' : table names rows df -> table names rows df' -> df = df'.
Proof.
  destruct df as [cs d], df' as [cs' d']. intros (H1 & H2 & H3) (H4 & H5 & H6). cbn in *. subst cs cs'. f_equal.
  apply map_eq. intros c. destruct (decide (c ∈ names)) as [Hc|Hc].
  - apply elem_of_list_lookup in Hc as [j Hj]. by rewrite (H3 j c Hj), (H6 j c Hj).
  - destruct (d !! c) eqn:E; [by destruct Hc; apply H2; rewrite E|]. destruct (d' !! c) eqn:E'; [by destruct Hc; apply H5; rewrite E'|done].
Qed.

Lemma from_csv_iff file df : (from_csv [] file = Ok df /\ NoDup (f_cols df)) <->
  exists ls, file_lines file ls /\
  match full_lines ls with
  | [] => df = Frame [] ∅
  | hd :: ls => exists names rows, header_text hd names /\ NoDup names /\ Forall2 row_text ls rows /\
      Forall (fun row => length row = length names) rows /\ table names rows df
  end.
Proof.
  unfold from_csv. rewrite bool_decide_eq_false_2 by (intros H; by apply H). split.
  - intros [H Hnd]. apply obind_Ok in H as ([df1 b] & H & [= <-]). exists (getlines newline file). split; [apply file_lines_exists|].
    pose proof (proj1 (csv_file_iff _ _) (ex_intro _ b H)) as Hf. destruct (full_lines _) as [|hd ls]; [done|].
    destruct Hf as (names & rows & Hh & HF & Hl & ->). cbn [f_cols] in Hnd. exists names, rows. split_and!; try done. by apply table_of.
  - intros (ls & Hls & Hf). rewrite (file_lines_getlines _ _ Hls).
    assert (exists b, foldM (csv_line false) (Frame [] ∅, true) ls = Ok (df, b)) as [b Hb].
    { apply csv_file_iff. destruct (full_lines ls) as [|hd ls']; [done|]. destruct Hf as (names & rows & Hh & Hnd & HF & Hl & Ht).
      exists names, rows. split_and!; try done. eapply table_unique; [done|]. by apply table_of. }
    rewrite Hb. split; [done|]. destruct (full_lines ls) as [|hd ls']; [subst df; constructor|].
    destruct Hf as (names & rows & _ & Hnd & _ & _ & (-> & _)). done.
Qed.
