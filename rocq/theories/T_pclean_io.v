(** C42: the reader of PClean schema files. *)
From Coq Require Import String Ascii.
From stdpp Require Import gmap strings list.
From Coq Require Import Lia.
From Verif Require Import M_base M_text M_parse M_io M_pclean_io S_parse S_schema S_io S_pclean_io P_base P_text P_parse P_schema P_io P_pclean_io.
Local Open Scope nat_scope.

(** Reading succeeds exactly for the files that consist of class and query blocks, and then
    stores what the blocks say. *)
Theorem C42_file file s : (forall c, c ∈ file -> code c <> 0) ->
  read_pschema file = Ok (true, s) <->
  exists ls bs, file_lines file ls /\ blocks ls bs /\ one_from "" bs /\ says_schema bs s.
Proof.
  intros Hn. unfold read_pschema.
  assert (no_nul (getlines newline file)) as Hnn.
  { intros l c Hl Hc. apply Hn. by eapply getlines_sub. }
  split.
  - intros H. apply read_pschema_iff in H as (bs & Hb & Ho & ->); [|done|lia]. exists (getlines newline file), bs.
    split_and!; [apply file_lines_exists|done|done|by apply says_schema_iff].
  - intros (ls & bs & Hls & Hb & Ho & Hs). rewrite (file_lines_getlines _ _ Hls) in *. apply read_pschema_iff; [done|lia|].
    exists bs. split_and!; [done|done|by apply says_schema_iff].
Qed.
Print Assumptions C42_file.

(** ** Writing a schema and reading it *)
Definition clean_tok (t : token) : Prop := writable t /\ forall c, c ∈ t_val t -> code c <> 0 /\ c <> newline.
Lemma name_char_clean c : name_char c -> code c <> 0 /\ c <> newline.
Proof.
  intros H. assert (32 < code c) as Hc.
  { assert (code "0"%char = 48 /\ code "a"%char = 97 /\ code "A"%char = 65) as (H0 & Ha & HA) by by vm_compute.
    destruct H as [[H _]|[[[H _]|[H _]]|H]]; [lia..|]. subst c. by apply Nat.ltb_lt. }
  split; [lia|]. intros ->. vm_compute in Hc. lia.
Qed.
Lemma id_clean s : name_ok s -> clean_tok (id s).
Proof.
  intros [Hs Hf]. split; [by exists (txt s)|]. cbn. intros c Hc. apply name_char_clean. by apply (proj1 (Forall_forall _ _) Hf).
Qed.
Lemma sym_clean c : punctuation c -> clean_tok (Tok TSymbol [c]).
Proof.
  intros H. split; [exists [c]; split; [done|by exists c]|]. cbn. intros c' Hc'%elem_of_list_singleton. subst c'.
  unfold punctuation in H. repeat (apply elem_of_cons in H as [->|H]; [done|]). by apply elem_of_nil in H.
Qed.
Lemma canonical_clean t : clean_tok t -> forall c, c ∈ canonical t -> code c <> 0 /\ c <> newline.
Proof.
  intros [_ Hc] c Hin. unfold canonical in Hin. destruct (t_type t); try by apply Hc.
  case_bool_decide; (apply elem_of_app in Hin as [Hin|Hin]; [apply elem_of_list_singleton in Hin as ->; done|]);
    (apply elem_of_app in Hin as [Hin|Hin]; [by apply Hc|]); apply elem_of_list_singleton in Hin as ->; done.
Qed.
Lemma render_clean ts : Forall clean_tok ts -> accepted (render ts) ts /\ forall c, c ∈ render ts -> code c <> 0 /\ c <> newline.
Proof.
  intros H. split; [apply render_accepted; eapply Forall_impl; [exact H|]; by intros t [? _]|].
  induction H as [|t ts Ht _ IH]; intros c Hc; [by apply elem_of_nil in Hc|]. unfold render in Hc. cbn [map concat] in Hc.
  apply elem_of_app in Hc as [Hc|Hc]; [|by apply IH].
  apply elem_of_app in Hc as [Hc|Hc]; [|apply elem_of_list_singleton in Hc as ->; done].
  by eapply canonical_clean.
Qed.

Definition store_var (v : src_var) : pvar :=
  match v with SClass c => PClassVar c | SScalar j ps => PScalar j (foldl enter ∅ (map (fun p => (p.1, val p.2)) ps)) end.
Lemma val_id s : val (id s) = s.
Proof. apply str_txt. Qed.
Lemma params_groups ps : ps <> [] -> param_groups (params_written ps ++ [Tok TSymbol (txt ")")]) (map (fun p => (p.1, val p.2)) ps).
Proof.
  induction ps as [|[k v] ps IH]; [done|]. intros _. destruct ps as [|p ps].
  - cbn [params_written app map fst snd]. rewrite <- (str_txt k) at 2. apply (pg_cons (id k)); [done|by right|constructor].
  - change (params_written ((k, v) :: p :: ps)) with ([id k; Tok TSymbol (txt "="); v; Tok TSymbol (txt ",")] ++ params_written (p :: ps)).
    rewrite <- app_assoc. cbn [app]. cbn [map fst snd]. rewrite <- (str_txt k) at 2. apply (pg_cons (id k)); [done|by left|]. by apply IH.
Qed.
Lemma var_defines x v : src_var_ok v -> defines (var_tokens x v) x (store_var v).
Proof.
  intros Hv. rewrite <- (val_id x) at 2. destruct v as [c|j ps]; cbn [var_tokens store_var].
  - rewrite <- (val_id c) at 2. destruct Hv as [_ Hc]. by constructor.
  - rewrite <- (val_id j) at 2. unfold definition_written. cbn [app]. destruct ps as [|p ps].
    + change (params_written [] ++ [Tok TSymbol (txt ")")]) with ([] ++ [Tok TSymbol (txt ")")]).
      eapply def_params; [done|constructor|cbn; lia|apply latest_of].
    + rewrite <- (app_nil_r (params_written _ ++ _)). eapply def_params; [done|by apply params_groups|cbn; lia|apply latest_of].
Qed.
Lemma params_clean ps : Forall (fun p => name_ok p.1 /\ value_ok p.2) ps -> Forall clean_tok (params_written ps).
Proof.
  induction 1 as [|[k v] ps [Hk Hv] Hps IH]; [constructor|]. cbn [fst snd] in *.
  assert (Forall clean_tok [id k; Tok TSymbol (txt "="); v]) as H3.
  { repeat (apply Forall_cons; split); [by apply id_clean|apply sym_clean; by apply (bool_decide_unpack _)|done|constructor]. }
  destruct ps as [|p ps]; [done|].
  change (params_written ((k, v) :: p :: ps)) with ([id k; Tok TSymbol (txt "="); v] ++ [Tok TSymbol (txt ",")] ++ params_written (p :: ps)).
  apply Forall_app. split; [done|]. apply Forall_cons. split; [apply sym_clean; by apply (bool_decide_unpack _)|done].
Qed.
Lemma var_tokens_clean x v : name_ok x -> src_var_ok v -> Forall clean_tok (var_tokens x v).
Proof.
  intros Hx Hv. destruct v as [c|j ps]; cbn [var_tokens].
  - destruct Hv as [Hc _]. repeat (apply Forall_cons; split); [by apply id_clean|apply sym_clean; by apply (bool_decide_unpack _)|by apply id_clean|constructor].
  - destruct Hv as [Hj Hp]. unfold definition_written. repeat (apply Forall_cons; split); [by apply id_clean|apply sym_clean; by apply (bool_decide_unpack _)|by apply id_clean|apply sym_clean; by apply (bool_decide_unpack _)|].
    apply Forall_app. split; [by apply params_clean|]. apply Forall_cons. split; [apply sym_clean; by apply (bool_decide_unpack _)|constructor].
Qed.
Lemma path_tokens_spec p : p <> [] -> Forall name_ok p -> path_written (path_tokens p) p /\ Forall clean_tok (path_tokens p) /\
  exists ts, path_tokens p = id (default "" (head p)) :: ts.
Proof.
  induction p as [|c p IH]; [done|]. intros _ [Hc Hp]%Forall_cons. destruct p as [|d p].
  - cbn [path_tokens]. split_and!; [rewrite <- (val_id c) at 2; constructor|apply Forall_cons; split; [by apply id_clean|constructor]|by eexists].
  - destruct IH as (H1 & H2 & _); [done|done|]. change (path_tokens (c :: d :: p)) with (id c :: Tok TSymbol (txt ".") :: path_tokens (d :: p)).
    split_and!; [rewrite <- (val_id c) at 2; by constructor| |by eexists]. repeat (apply Forall_cons; split); [by apply id_clean|apply sym_clean; by apply (bool_decide_unpack _)|done].
Qed.

Definition src_block (c : string * list (string * src_var)) : block := BClass c.1 (map (fun xv => (xv.1, store_var xv.2)) c.2).
Definition src_items (r : string) (fs : list (string * list string)) : list item := map (fun f => Field f.1 f.2) fs ++ [From_ r].
Definition good_line (l : text) : Prop := newline ∉ l /\ forall c, c ∈ l -> code c <> 0.
Lemma render_good ts : Forall clean_tok ts -> good_line (render ts).
Proof. intros H. destruct (render_clean ts H) as [_ Hc]. split; [intros Hn; by apply Hc in Hn as [_ ?]|intros c Hin; by apply Hc]. Qed.
Lemma good_nil : good_line [].
Proof. split; [apply not_elem_of_nil|]. intros c H. by apply elem_of_nil in H. Qed.
Local Ltac solve_name := split; [eexists _, _; split; [reflexivity|]|]; unfold name_char, digit, letter, between; by apply (bool_decide_unpack _).
Lemma class_lines_ok c : name_ok c.1 -> Forall (fun xv => name_ok xv.1 /\ src_var_ok xv.2) c.2 ->
  Forall good_line (class_lines c) /\ forall rest bs, blocks rest bs -> blocks (class_lines c ++ rest) (src_block c :: bs).
Proof.
  destruct c as [n vs]. cbn [fst snd]. intros Hn Hvs.
  assert (Forall clean_tok [id "class"; id n]) as Hhd by (repeat (apply Forall_cons; split); [|by apply id_clean|constructor]; apply id_clean; solve_name).
  assert (class_body (map (fun xv => render (var_tokens xv.1 xv.2)) vs) (map (fun xv => (xv.1, store_var xv.2)) vs)) as Hb.
  { induction Hvs as [|[x v] vs [Hx Hv] _ IH]; cbn [map fst snd]; [constructor|]. cbn [fst snd] in *.
    eapply cb_var; [by apply render_clean, var_tokens_clean|by apply var_defines|done]. }
  split.
  - unfold class_lines. cbn [fst snd]. apply Forall_cons. split; [by apply render_good|]. apply Forall_app. split; [|apply Forall_cons; split; [apply good_nil|constructor]].
    apply Forall_map. eapply Forall_impl; [exact Hvs|]. intros xv [? ?]. by apply render_good, var_tokens_clean.
  - intros rest bs Hr. unfold class_lines, src_block. cbn [fst snd app]. rewrite <- (val_id n) at 2.
    eapply bl_class; [by apply (render_clean _ Hhd)| |rewrite <- app_assoc; cbn [app]; by apply ends_line|done].
    intros c l E. destruct Hn as [(c' & l' & E' & Hc) Hf]. cbn in E. rewrite E in *. apply Forall_cons in Hf as [Hf _].
    assert (code c < 128); [|done]. destruct Hf as [[_ H]|[[[_ H]|[_ H]]|H]]; [replace (code "9"%char) with 57 in H by done; lia|replace (code "z"%char) with 122 in H by done; lia|replace (code "Z"%char) with 90 in H by done; lia|].
    subst c. by apply Nat.ltb_lt.
Qed.
Lemma query_lines_ok r fs : name_ok r ->
  Forall (fun f => name_ok f.1 /\ f.2 <> [] /\ head f.2 <> Some "from"%string /\ Forall name_ok f.2) fs ->
  Forall good_line (query_lines r fs) /\ blocks (query_lines r fs) [BQuery (src_items r fs)].
Proof.
  intros Hr Hfs.
  assert (Forall clean_tok [id "observe"]) as Hhd by (apply Forall_cons; split; [|constructor]; apply id_clean; solve_name).
  assert (Forall clean_tok [id "from"; id r]) as Hfr by (repeat (apply Forall_cons; split); [|by apply id_clean|constructor]; apply id_clean; solve_name).
  assert (Forall (fun f => Forall clean_tok (path_tokens f.2 ++ [id "as"; id f.1])) fs) as Hcl.
  { eapply Forall_impl; [exact Hfs|]. intros [n p] (Hn & Hne & _ & Hp). cbn [fst snd] in *. destruct (path_tokens_spec p Hne Hp) as (_ & H & _).
    apply Forall_app. split; [done|]. repeat (apply Forall_cons; split); [|by apply id_clean|constructor]. apply id_clean; solve_name. }
  assert (query_body (map (fun f => render (path_tokens f.2 ++ [id "as"; id f.1])) fs ++ [render [id "from"; id r]]) (src_items r fs)) as Hb.
  { unfold src_items. induction Hfs as [|[n p] fs (Hn & Hne & Hfrom & Hp) _ IH]; cbn [map app fst snd] in *.
    - eapply qb_item; [by apply (render_clean _ Hfr)|rewrite <- (val_id r) at 2; by constructor|constructor].
    - apply Forall_cons in Hcl as [Hc Hcl]. eapply qb_item; [by apply (render_clean _ Hc)| |by apply IH]. cbn [fst snd].
      destruct (path_tokens_spec p Hne Hp) as (Hw & _ & ts & E). rewrite E in *. rewrite <- (val_id n) at 2. constructor; [|done].
      intros Hs. destruct p as [|c p]; [done|]. cbn in Hs, Hfrom. apply Hfrom. f_equal. unfold says in Hs. cbn in Hs. rewrite <- (str_txt c), Hs. done. }
  split.
  - unfold query_lines. apply Forall_cons. split; [by apply render_good|]. apply Forall_app. split.
    + apply Forall_map. eapply Forall_impl; [exact Hcl|]. intros f. apply render_good.
    + repeat (apply Forall_cons; split); [by apply render_good|apply good_nil|constructor].
  - unfold query_lines. eapply (bl_query _ _ []); [by apply (render_clean _ Hhd)| |constructor].
    change [render [id "from"; id r]; []] with ([render [id "from"; id r]] ++ [[]]). rewrite app_assoc. by apply ends_line.
Qed.
Lemma src_lines_ok s : src_ok s -> Forall good_line (src_lines s) /\
  blocks (src_lines s) (map src_block (src_classes s) ++ [BQuery (src_items (src_record s) (src_fields s))]).
Proof.
  destruct s as [cs r fs]. intros (Hcs & Hr & Hfs). cbn [src_classes src_record src_fields] in *.
  destruct (query_lines_ok r fs Hr Hfs) as [Hq1 Hq2]. unfold src_lines. cbn [src_classes src_record src_fields].
  induction Hcs as [|c cs [Hn Hvs] _ IH]; [done|]. destruct IH as [I1 I2]. destruct (class_lines_ok c Hn Hvs) as [H1 H2].
  cbn [map concat]. rewrite <- app_assoc. split; [by apply Forall_app|]. by apply H2.
Qed.

Lemma last_filter_nodup {A} (l : list (string * A)) k x : NoDup (map fst l) -> (k, x) ∈ l -> last (filter (fun p => p.1 = k) l) = Some (k, x).
Proof.
  induction l as [|[k' x'] l IH]; intros Hnd Hin; [by apply elem_of_nil in Hin|]. apply NoDup_cons in Hnd as [Hk Hnd]. rewrite filter_cons. cbn [fst].
  apply elem_of_cons in Hin as [[= <- <-]|Hin].
  - rewrite decide_True by done. assert (filter (fun p => p.1 = k) l = []) as ->; [|done].
    destruct (filter (fun p => p.1 = k) l) as [|p ps] eqn:E; [done|]. exfalso. assert (p ∈ filter (fun p => p.1 = k) l) as Hp by (rewrite E; left).
    apply elem_of_list_filter in Hp as [Hp1 Hp2]. apply Hk. cbn [fst]. rewrite <- Hp1. exact (elem_of_list_fmap_1 fst _ _ Hp2).
  - destruct (decide (k' = k)) as [->|Hne]; [|by apply IH]. destruct Hk. exact (elem_of_list_fmap_1 fst _ _ Hin).
Qed.
Lemma latest_nodup {A} (l : list (string * A)) m : NoDup (map fst l) -> latest l m -> forall k x, m !! k = Some x <-> (k, x) ∈ l.
Proof.
  intros Hnd H k x. rewrite (H k). split.
  - intros Hx. apply fmap_Some in Hx as ([k' x'] & Hl & ->). apply last_Some_elem_of, elem_of_list_filter in Hl as [<- Hl]. done.
  - intros Hin. by rewrite (last_filter_nodup l k x).
Qed.
Lemma map_fst_map {A B} (f : A -> B) (l : list (string * A)) : map fst (map (fun p => (p.1, f p.2)) l) = map fst l.
Proof. induction l as [|? l IH]; [done|]. cbn. by f_equal. Qed.

(** Names that are given only once: the file that is written for a schema is read as that
    schema. *)
Theorem C42_round_trip s : src_ok s -> distinct_names s ->
  exists t, read_pschema (lines_of (src_lines s)) = Ok (true, t) /\ stores s t.
Proof.
  intros Hok (Hd1 & Hd2 & Hd3). destruct (src_lines_ok s Hok) as [Hg Hb].
  set (bs := map src_block (src_classes s) ++ [BQuery (src_items (src_record s) (src_fields s))]) in *.
  assert (class_blocks bs = map (fun p => (p.1, map (fun xv => (xv.1, store_var xv.2)) p.2)) (src_classes s)) as Ecb.
  { unfold bs, class_blocks. rewrite omap_app. cbn [omap list_omap]. rewrite app_nil_r. clear. induction (src_classes s) as [|c cs IH]; [done|]. cbn. by f_equal. }
  assert (query_items bs = src_items (src_record s) (src_fields s)) as Eqi.
  { unfold bs, query_items. rewrite map_app, concat_app. cbn [map concat]. rewrite app_nil_r. clear. induction (src_classes s) as [|c cs IH]; [done|]. done. }
  assert (fields (query_items bs) = src_fields s) as Ef.
  { rewrite Eqi. unfold src_items, fields. rewrite omap_app. cbn [omap list_omap]. rewrite app_nil_r. clear. induction (src_fields s) as [|[n p] fs IH]; [done|]. cbn. by f_equal. }
  assert (record_of "" (query_items bs) = src_record s) as Er.
  { rewrite Eqi. unfold src_items, record_of, froms. rewrite omap_app. cbn [omap list_omap]. by rewrite last_snoc. }
  exists (foldl enter_block pschema_empty bs). assert (says_schema bs (foldl enter_block pschema_empty bs)) as Hs by by apply says_schema_iff. split.
  - apply C42_file.
    + intros c Hc. revert Hg Hc. generalize (src_lines s). induction 1 as [|l ls [_ Hl] _ IH]; intros Hc; [by apply elem_of_nil in Hc|].
      unfold lines_of in Hc. cbn [map concat] in Hc. apply elem_of_app in Hc as [Hc|Hc]; [|by apply IH].
      apply elem_of_app in Hc as [Hc|Hc]; [by apply Hl|]. apply elem_of_list_singleton in Hc as ->. done.
    + exists (src_lines s), bs. split_and!; [|done| |done].
      * split; [|by left]. eapply Forall_impl; [exact Hg|]. by intros l [? _].
      * unfold bs. clear. induction (src_classes s) as [|c cs IH]; [|done]. cbn. split_and!; try done. unfold src_items.
        induction (src_fields s) as [|f fs IH]; done.
  - destruct Hs as (H1 & H2 & H3). rewrite Ecb in H1. rewrite Er in H2. rewrite Ef in H3. split_and!.
    + intros n. split.
      * intros [c Hc]. apply H1 in Hc as (vs & Hl & _). apply last_Some_elem_of, elem_of_list_filter in Hl as [_ Hl].
        apply elem_of_list_fmap in Hl as (p & Hp & Hin). injection Hp as -> _. by apply (elem_of_list_fmap_1 fst).
      * intros Hin. apply elem_of_list_fmap in Hin as ([n' vs] & -> & Hin). cbn [fst]. exists (foldl enter ∅ (map (fun xv => (xv.1, store_var xv.2)) vs)).
        apply H1. eexists. split; [|apply latest_of]. apply last_filter_nodup; [by rewrite map_fst_map|].
        apply (elem_of_list_fmap_1 (fun p => (p.1, map (fun xv => (xv.1, store_var xv.2)) p.2)) _ (n', vs)). done.
    + intros n vs Hin. exists (foldl enter ∅ (map (fun xv => (xv.1, store_var xv.2)) vs)). split.
      { apply H1. eexists. split; [|apply latest_of]. apply last_filter_nodup; [by rewrite map_fst_map|].
        apply (elem_of_list_fmap_1 (fun p => (p.1, map (fun xv => (xv.1, store_var xv.2)) p.2)) _ (n, vs)). done. }
      assert (NoDup (map fst (map (fun xv : string * src_var => (xv.1, store_var xv.2)) vs))) as Hnd.
      { rewrite map_fst_map. by apply (proj1 (Forall_forall _ _) Hd2 (n, vs)). }
      pose proof (latest_nodup _ _ Hnd (latest_of _)) as Hlk. split.
      * intros x. split.
        -- intros [w Hw]. apply Hlk in Hw. apply (elem_of_list_fmap_1 fst) in Hw. cbn [fst] in Hw. change (fst <$> ?l) with (map fst l) in Hw. by rewrite map_fst_map in Hw.
        -- intros Hx. apply elem_of_list_fmap in Hx as ([x' v] & -> & Hx). exists (store_var v). apply Hlk.
           apply (elem_of_list_fmap_1 (fun xv => (xv.1, store_var xv.2)) _ (x', v)). done.
      * intros x v Hx. exists (store_var v). split.
        -- apply Hlk. apply (elem_of_list_fmap_1 (fun xv => (xv.1, store_var xv.2)) _ (x, v)). done.
        -- destruct v; cbn; [done|]. split; [done|apply latest_of].
    + done.
    + intros f p. by apply latest_nodup.
Qed.
Print Assumptions C42_round_trip.

(** ** Reads outside the token list
    A line of a class whose definition stops after [key = value] is undefined behaviour. *)
Theorem C42_out_of_bounds n w j rest : says w "~" ->
  resolve_variable (n :: w :: j :: rest) = UB <->
  (rest = [] /\ ~ plain_start j) \/
  exists x gs ps k e v, rest = x :: gs ++ [k; e; v] /\ param_groups gs ps /\ says e "=".
Proof. intros _. apply resolve_ub. Qed.
Print Assumptions C42_out_of_bounds.
Theorem C42_no_out_of_bounds_refuted : exists file, (forall c : ascii, c ∈ file -> S_parse.plain c) /\ read_pschema file = UB.
Proof.
  exists (txt "class Person" ++ newline :: txt "  age ~ real(mean=5" ++ [newline]). split; [|by vm_compute].
  apply Forall_forall. unfold S_parse.plain. by apply (bool_decide_unpack _).
Qed.
Print Assumptions C42_no_out_of_bounds_refuted.

(** The opening parenthesis, the word [as] and the end of the parameter list are not checked. *)
Theorem C42_lenient_refuted : exists file t, read_pschema file = Ok (true, t) /\
  (exists c, ps_classes t !! "Person"%string = Some c /\ c !! "age"%string = Some (PScalar "real" {["mean"%string := "5"%string]})) /\
  pq_fields (ps_query t) !! "Age"%string = Some ["age"]%string /\
  file = txt "class Person" ++ newline :: txt "  age ~ real + mean = 5 ) ~" ++ newline :: newline ::
         txt "observe" ++ newline :: txt "  age of Age" ++ [newline].
Proof.
  eexists _, _. split_and!; [| | |reflexivity]; [vm_compute; reflexivity|eexists; split; [vm_compute; reflexivity|]|]; vm_compute; reflexivity.
Qed.

(** A failed read leaves what was read before the bad line; the program goes on with it
    (pclean.cc:79-81 only prints a message). *)
Example C42_failure_keeps_prefix : exists t, read_pschema (txt "class A" ++ newline :: newline :: txt "nonsense" ++ [newline]) = Ok (false, t) /\
  is_Some (ps_classes t !! "A"%string).
Proof. eexists. split; [vm_compute; reflexivity|]. by eexists. Qed.

(** The schema of a physician data base. *)
Definition C42_src : src :=
  Src [("School"%string, [("name"%string, SScalar "string" [("maxlength"%string, Tok TNumber (txt "30")); ("chars"%string, Tok TString (txt "a b"))])]);
       ("Physician"%string, [("school"%string, SClass "School"); ("degree"%string, SScalar "stringcat" [])])]
      "Physician" [("School"%string, ["school"; "name"]%string); ("Degree"%string, ["degree"]%string)].
Example C42_src_case : src_ok C42_src /\ distinct_names C42_src.
Proof.
  assert (forall s : string, s ∈ ["School"; "name"; "string"; "maxlength"; "chars"; "Physician"; "school"; "degree"; "stringcat"; "Degree"]%string -> name_ok s) as Hn.
  { intros s Hs. repeat (apply elem_of_cons in Hs as [->|Hs]; [solve_name|]). by apply elem_of_nil in Hs. }
  split.
  - split; [|split]; cbn [src_classes src_record src_fields C42_src].
    + apply Forall_cons_2; [|apply Forall_cons_2; [|apply Forall_nil_2]]; cbn [fst snd].
      * split; [apply Hn; by apply (bool_decide_unpack _)|]. apply Forall_cons_2; [|apply Forall_nil_2]. cbn [fst snd src_var_ok].
        split; [apply Hn; by apply (bool_decide_unpack _)|]. split; [apply Hn; by apply (bool_decide_unpack _)|].
        apply Forall_cons_2; [|apply Forall_cons_2; [|apply Forall_nil_2]]; cbn [fst snd]; (split; [apply Hn; by apply (bool_decide_unpack _)|]); split.
        -- exists (txt "30"). cbn. split; [reflexivity|]. split; [eexists _, _; split; [reflexivity|]|]; unfold number_char, digit, between; by apply (bool_decide_unpack _).
        -- apply Forall_forall. by apply (bool_decide_unpack _).
        -- eexists. cbn. exists "'"%char. split; [by right|]. split; [by apply (bool_decide_unpack _)|reflexivity].
        -- apply Forall_forall. by apply (bool_decide_unpack _).
      * split; [apply Hn; by apply (bool_decide_unpack _)|]. apply Forall_cons_2; [|apply Forall_cons_2; [|apply Forall_nil_2]]; cbn [fst snd src_var_ok];
          (split; [apply Hn; by apply (bool_decide_unpack _)|]); (split; [apply Hn; by apply (bool_decide_unpack _)|]); [|apply Forall_nil_2].
        eexists _, _. split; [reflexivity|]. unfold between. by apply (bool_decide_unpack _).
    + apply Hn. by apply (bool_decide_unpack _).
    + apply Forall_cons_2; [|apply Forall_cons_2; [|apply Forall_nil_2]]; cbn [fst snd];
        (split; [apply Hn; by apply (bool_decide_unpack _)|]); (split; [done|]); (split; [done|]);
        apply Forall_forall; intros s Hs; apply Hn; repeat (apply elem_of_cons in Hs as [->|Hs]; [by apply (bool_decide_unpack _)|]); by apply elem_of_nil in Hs.
  - split_and!; cbn [src_classes src_record src_fields C42_src]; try by apply (bool_decide_unpack _).
Qed.
Example C42_src_text : lines_of (src_lines C42_src) =
  txt "class School " ++ newline :: txt "name ~ string ( maxlength = 30 , chars = 'a b' ) " ++ newline :: newline ::
  txt "class Physician " ++ newline :: txt "school ~ School " ++ newline :: txt "degree ~ stringcat ( ) " ++ newline :: newline ::
  txt "observe " ++ newline :: txt "school . name as School " ++ newline :: txt "degree as Degree " ++ newline :: txt "from Physician " ++ newline :: [newline].
Proof. by vm_compute. Qed.
