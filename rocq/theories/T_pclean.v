(** C41: samples and entity names of a PClean model. *)
From Coq Require Import String Ascii.
From stdpp Require Import gmap strings list sorting relations.
From Coq Require Import ZArith Reals Lia.
From Verif Require Import M_base M_crp M_domain M_dist M_relation M_noisy M_irm M_hirm M_text M_parse M_io M_schema M_csv M_pclean_io M_gendb M_gendb_rels M_gendb_state M_pclean
  S_crp S_crp_state S_irm S_hirm S_gendb S_gendb_rels S_gendb_state P_base P_crp P_gendb P_gendb_rels P_tally T_gendb_schema
  T_gendb_rels P_gendb_ents P_gendb_fill P_gendb_data P_gendb_blank P_gendb_vec P_gendb_reach T_gendb_state T_gendb_rows.
Local Open Scope nat_scope.

(** The samples file is empty, whatever is sampled. *)
Theorem C41_samples_file_refuted {V} : forall show rid n start (g : gendb V) r t, samples_file show rid n start g r = Ok t -> t = [].
Proof.
  intros show rid n start g r t H. unfold samples_file in H. apply obind_Ok in H as ([[df g'] r'] & H & Ht).
  assert (f_cols df = []) as Hc; [|unfold to_csv in Ht; rewrite Hc in Ht; by injection Ht as <-].
  unfold pclean_samples in H.
  assert (forall l df0 g r df g' r', foldM (fun '(df, g, r) i => let* (vals, g, r) := pclean_sample show rid g (start + Z.of_nat i)%Z r in Ok (push_values df vals, g, r)) (df0, g, r) l = Ok (df, g', r') ->
    f_cols df = f_cols df0) as HL; [|by apply HL in H].
  clear. intros l. induction l as [|i l IH]; intros df0 g r df g' r' H; cbn [foldM] in H; [by injection H as <- <- <-|].
  apply obind_Ok in H as ([[df1 g1] r1] & Hst & H). apply IH in H as ->. apply obind_Ok in Hst as ([[vals g2] r2] & _ & Hst). injection Hst as <- <- <-.
  unfold push_values. generalize (sorted_names vals). intros cs. revert df0. induction cs as [|c cs IHc]; intros df0; cbn [foldl]; [done|]. by rewrite IHc.
Qed.
Print Assumptions C41_samples_file_refuted.

(** The columns of the frame of samples. *)
Lemma push_values_data df vals c : f_data (push_values df vals) !! c =
  match vals !! c with Some x => Some (default [] (f_data df !! c) ++ [x]) | None => f_data df !! c end.
Proof.
  unfold push_values.
  assert (forall cs df, NoDup cs -> (forall c, c ∈ cs -> is_Some (vals !! c)) ->
    f_data (foldl (fun df c => Frame (f_cols df) (push (f_data df) c (default EmptyString (vals !! c)))) df cs) !! c =
    if decide (c ∈ cs) then Some (default [] (f_data df !! c) ++ [default EmptyString (vals !! c)]) else f_data df !! c) as HL.
  { clear df. intros cs. induction cs as [|a cs IH]; intros df Hnd Hin; cbn [foldl].
    - by rewrite decide_False by apply not_elem_of_nil.
    - inversion Hnd as [|? ? Ha Hnd']; subst. rewrite IH by (done || (intros; apply Hin; by right)). cbn [f_data]. unfold push.
      destruct (decide (c = a)) as [->|Hne].
      + rewrite decide_False by done. rewrite lookup_insert, decide_True by left. done.
      + rewrite lookup_insert_ne by done. destruct (decide (c ∈ cs)) as [Hc|Hc].
        * rewrite decide_True by by right. done.
        * rewrite decide_False; [done|]. rewrite elem_of_cons. tauto. }
  rewrite HL; [|apply NoDup_sorted_names|intros c' Hc'; by apply elem_of_sorted_names in Hc'].
  destruct (vals !! c) as [x|] eqn:E.
  - rewrite decide_True; [done|]. apply elem_of_sorted_names. eauto.
  - rewrite decide_False; [done|]. rewrite elem_of_sorted_names, E. by intros [? ?].
Qed.

(** The frame has a column for every field of the query and no other.  The [i]-th value of a
    column is that of an observation of the field for row [start + i], at the items of that
    row for the path of the field. *)
Theorem C41_samples {V} : forall rid (build : hdecl -> t_rel V) show only_final record_is_clean s g n start r df g' r',
  well_formed s -> (record_is_clean = true -> record_queried_once s) -> (forall c, shallow (ps_classes s) c) -> faithful build ->
  gendb_reach rid build show only_final record_is_clean s g -> pclean_samples show rid n start g r = Ok (df, g', r') ->
  (0 < n -> dom (f_data df) = dom (pq_fields (ps_query s))) /\
  forall q col, f_data df !! q = Some col -> length col = n /\
    forall i x, col !! i = Some x -> exists l v path fs u, x = show v /\ observed (g_hirm g') q l v /\
      pq_fields (ps_query s) !! q = Some path /\ path = fs ++ [u] /\
      path_vector (ps_classes s) (g_ents g') (pq_record (ps_query s)) fs (start + Z.of_nat i) l.
Proof.
  intros rid build show of cl s g n start r df g' r' WF Ho Hsh Hf Hg H.
  destruct (reach_inv rid build show of cl s WF Ho Hsh Hf g Hg) as (fuel & dm & refs & m & Hdm & Hrefs & Hm & Hi & _). clear Hg.
  pose (good := fun (g : gendb V) q i x => exists l v path fs u, x = show v /\ observed (g_hirm g) q l v /\
      pq_fields (ps_query s) !! q = Some path /\ path = fs ++ [u] /\
      path_vector (ps_classes s) (g_ents g) (pq_record (ps_query s)) fs (start + Z.of_nat i) l).
  assert (forall (g g' : gendb V) q i x, gstep g g' -> good g q i x -> good g' q i x) as Hgrow.
  { intros g1 g2 q i x Hs (l & v & path & fs & u & -> & Hob & Hp & Hpp & Hv). exists l, v, path, fs, u. split_and!; try done; [by apply Hs|].
    eapply path_vector_grow; [apply (gs_grow _ _ Hs)|done]. }
  assert (forall k j df0 g0 r0 df g' r', j + k = n -> ginv rid build s m (vector_of of cl s) g0 ->
    (if decide (j = 0) then f_data df0 = ∅ else dom (f_data df0) = dom (pq_fields (ps_query s))) ->
    (forall q col, f_data df0 !! q = Some col -> length col = j /\ forall i x, col !! i = Some x -> good g0 q i x) ->
    foldM (fun '(df, g, r) i => let* (vals, g, r) := pclean_sample show rid g (start + Z.of_nat i)%Z r in Ok (push_values df vals, g, r)) (df0, g0, r0) (seq j k) = Ok (df, g', r') ->
    (if decide (n = 0) then f_data df = ∅ else dom (f_data df) = dom (pq_fields (ps_query s))) /\
    (forall q col, f_data df !! q = Some col -> length col = n /\ forall i x, col !! i = Some x -> good g' q i x)) as HL.
  { clear r df g' r' H g Hi. intros k. induction k as [|k IH]; intros j df0 g0 r0 df g' r' Hj Hg Hd Hc H; cbn [seq foldM] in H.
    - injection H as <- <- <-. replace n with j by lia. done.
    - apply obind_Ok in H as ([[df1 g1] r1] & Hst & H). apply obind_Ok in Hst as ([[vals g2] r2] & Hs & Hst). injection Hst as <- <- <-.
      destruct (sample_made rid build of cl s WF Ho Hsh Hf fuel dm refs m Hdm Hrefs Hm show _ _ _ _ _ _ Hg Hs) as (Hg1 & Hstep & Hdom & Hvals).
      eapply (IH (S j)); [lia|exact Hg1| | |exact H].
      + rewrite decide_False by lia. apply set_eq. intros q. rewrite elem_of_dom, push_values_data. destruct (vals !! q) as [x|] eqn:Ex.
        * assert (q ∈ dom vals) as Hq by (apply elem_of_dom; eauto). rewrite Hdom in Hq. split; [done|eauto].
        * assert (q ∉ dom vals) as Hq by by apply not_elem_of_dom. rewrite Hdom in Hq. destruct (decide (j = 0)).
          -- rewrite Hd, lookup_empty. split; [by intros [? ?]|done].
          -- rewrite <- Hd in Hq |- *. by rewrite <- elem_of_dom.
      + intros q col Hq. rewrite push_values_data in Hq. destruct (vals !! q) as [x|] eqn:Ex.
        * injection Hq as <-.
          assert (length (default [] (f_data df0 !! q)) = j /\ forall i y, default [] (f_data df0 !! q) !! i = Some y -> good g2 q i y) as [Hlen Hold].
          { destruct (f_data df0 !! q) as [col|] eqn:Ec; cbn [default from_option].
            - destruct (Hc q col Ec) as [? Hx]. split; [done|]. intros i y Hy. eapply Hgrow; [exact Hstep|by apply Hx].
            - split; [|intros i y Hy; by rewrite lookup_nil in Hy]. destruct (decide (j = 0)) as [->|]; [done|]. exfalso.
              assert (q ∈ dom vals) as Hq by (apply elem_of_dom; eauto). rewrite Hdom, <- Hd in Hq. apply elem_of_dom in Hq as [? ?]. congruence. }
          split; [rewrite app_length; cbn; lia|]. intros i y Hy. apply lookup_app_Some in Hy as [Hy|[Hge Hy]]; [by apply Hold|].
          apply list_lookup_singleton_Some in Hy as [Hi <-]. rewrite Hlen in Hi, Hge. assert (i = j) as -> by lia.
          destruct (Hvals q x Ex) as (l & v & -> & Hob & _ & fs & u & Hp & Hv). exists l, v, (fs ++ [u]), fs, u. done.
        * exfalso. assert (q ∉ dom vals) as Hnq by by apply not_elem_of_dom. rewrite Hdom in Hnq. destruct (decide (j = 0)).
          -- by rewrite Hd, lookup_empty in Hq.
          -- rewrite <- Hd in Hnq. apply not_elem_of_dom in Hnq. congruence. }
  unfold pclean_samples in H. apply (HL n 0) in H as [H1 H2]; [|done|done|by rewrite decide_True|intros q col; cbn; by rewrite lookup_empty].
  split; [|exact H2]. intros Hn. by rewrite decide_False in H1 by lia.
Qed.
Print Assumptions C41_samples.

(** ** Names of entities *)
Definition entity_name (k : string) (x : Z) : string := str (txt k ++ [":"%char] ++ print_int x).
Lemma dummy_codes_lookup c mx x : dummy_codes c mx !! x = if decide (0 <= x <= mx)%Z then Some (entity_name c x) else None.
Proof.
  unfold dummy_codes. destruct (decide (0 <= x <= mx)%Z) as [Hx|Hx].
  - apply elem_of_list_to_map_1.
    + rewrite <- list_fmap_compose. apply NoDup_fmap_2; [intros a b E; cbn in E; lia|apply NoDup_seq].
    + apply elem_of_list_fmap. exists (Z.to_nat x). rewrite Z2Nat.id by lia. split; [done|]. apply elem_of_seq. lia.
  - apply not_elem_of_list_to_map_1. rewrite <- list_fmap_compose. intros (i & -> & Hi)%elem_of_list_fmap. apply elem_of_seq in Hi. cbn in Hx. lia.
Qed.
(** An entity of class [k] up to the largest one referred to is called [k:x], and nothing
    else has a name. *)
Theorem C41_entity_names {V} : forall rid (build : hdecl -> t_rel V) show only_final record_is_clean s g,
  well_formed s -> (record_is_clean = true -> record_queried_once s) -> (forall c, shallow (ps_classes s) c) -> faithful build ->
  gendb_reach rid build show only_final record_is_clean s g -> exists enc, dummy_encoding g = Ok enc /\
  forall k x name, (exists m, enc !! k = Some m /\ m !! x = Some name) <->
    name = str (txt k ++ ":"%char :: print_int x) /\ (0 <= x)%Z /\
    exists c f i y, refers (ps_classes s) c f k /\ recorded (g_ents g) c f i y /\ (x <= y)%Z.
Proof.
  intros rid build show of cl s g WF Ho Hsh Hf Hg. pose proof (C40_bookkeeping _ _ _ _ _ _ _ WF Ho Hsh Hf Hg) as HA. clear Hg.
  set (cs := ps_classes s) in *. set (crps := en_crps (g_ents g)).
  assert (forall k crp, crps !! k = Some crp -> exists mx, crp_max_table crp = Ok mx /\
    forall x, (0 <= x)%Z -> (x <= mx)%Z <-> exists c f i y, refers cs c f k /\ recorded (g_ents g) c f i y /\ (x <= y)%Z) as Hmx.
  { intros k crp Hk. destruct (ea_seated _ _ _ HA k crp Hk) as (a & Ha & Hcust). destruct (decide (a = ∅)) as [->|Hne].
    - exists (-1)%Z. split.
      + unfold crp_max_table. by rewrite bool_decide_true by by apply (N_zero_iff crp ∅).
      + intros x Hx. split; [lia|]. intros (c & f & i & y & Hr & Hy & _). exfalso.
        assert ((∅ : seating) !! rid c f i = Some y) as Hin by (apply Hcust; eauto 6). by rewrite lookup_empty in Hin.
    - destruct (max_table_spec crp a Ha Hne) as (mx & Hmx & Hat & Hmax). exists mx. split; [done|]. intros x Hx. split.
      + intros Hle. apply set_choose_L in Hat as [id Hid]. apply elem_of_customers_at, Hcust in Hid as (c & f & i & Hr & Hy & _). eauto 8.
      + intros (c & f & i & y & Hr & Hy & Hle). assert (a !! rid c f i = Some y) as Hin by (apply Hcust; eauto 6).
        assert (y <= mx)%Z; [|lia]. apply Hmax. apply non_empty_inhabited_L with (rid c f i). by apply elem_of_customers_at. }
  unfold dummy_encoding. fold crps.
  assert (forall ks (acc : gmap string (gmap Z string)), NoDup ks -> (forall k, k ∈ ks -> is_Some (crps !! k)) -> exists enc,
    foldM (fun acc c => let* crp := at_ (crps !! c) in let* mx := crp_max_table crp in
      Ok (if bool_decide (0 <= mx)%Z then <[c := dummy_codes c mx]> acc else acc)) acc ks = Ok enc /\
    (forall k, k ∉ ks -> enc !! k = acc !! k) /\
    (forall k, k ∈ ks -> acc !! k = None -> exists crp mx, crps !! k = Some crp /\ crp_max_table crp = Ok mx /\
       enc !! k = if decide (0 <= mx)%Z then Some (dummy_codes k mx) else None)) as HL.
  { intros ks. induction ks as [|k ks IH]; intros acc Hnd Hin; cbn [foldM].
    - exists acc. split_and!; [done|done|]. intros k Hk. by apply elem_of_nil in Hk.
    - inversion Hnd as [|? ? Hk Hnd']; subst. destruct (Hin k) as [crp Hcrp]; [by left|]. destruct (Hmx k crp Hcrp) as (mx & Emx & _).
      rewrite Hcrp. cbn [at_ obind]. rewrite Emx. cbn [obind].
      destruct (IH (if bool_decide (0 <= mx)%Z then <[k := dummy_codes k mx]> acc else acc) Hnd') as (enc & E & E1 & E2); [intros; apply Hin; by right|].
      exists enc. split_and!; [done|..].
      + intros k' Hk'. rewrite not_elem_of_cons in Hk'. destruct Hk' as [Hne Hk']. rewrite E1 by done. case_bool_decide; [by rewrite lookup_insert_ne|done].
      + intros k' Hk' Hno. apply elem_of_cons in Hk' as [->|Hk'].
        * exists crp, mx. split_and!; [done|done|]. rewrite E1 by done. case_bool_decide.
          -- by rewrite lookup_insert, decide_True.
          -- by rewrite decide_False.
        * apply E2; [done|]. case_bool_decide; [|done]. rewrite lookup_insert_ne; [done|]. by intros ->. }
  destruct (HL (sorted_names crps) ∅) as (enc & E & E1 & E2); [apply NoDup_sorted_names|intros k; by rewrite elem_of_sorted_names|].
  exists enc. split; [done|]. intros k x name. change (str (txt k ++ ":"%char :: print_int x)) with (entity_name k x).
  destruct (crps !! k) as [crp|] eqn:Hk.
  - destruct (E2 k) as (crp' & mx & Hcrp' & Emx & Ek); [apply elem_of_sorted_names; eauto|apply lookup_empty|].
    assert (crp' = crp) as -> by congruence. destruct (Hmx k crp Hk) as (mx' & Emx' & Hx). assert (mx' = mx) as -> by congruence. split.
    + intros (m & Hm & Hn). rewrite Ek in Hm. destruct (decide (0 <= mx)%Z); [|done]. injection Hm as <-. rewrite dummy_codes_lookup in Hn.
      destruct (decide (0 <= x <= mx)%Z); [|done]. injection Hn as <-. split_and!; [done|lia|]. apply Hx; lia.
    + intros (-> & H0 & H). apply Hx in H; [|done]. exists (dummy_codes k mx). rewrite Ek, decide_True by lia. split; [done|].
      by rewrite dummy_codes_lookup, decide_True.
  - assert (k ∉ sorted_names crps) as Hno by (rewrite elem_of_sorted_names, Hk; by intros [? ?]). split.
    + intros (m & Hm & _). rewrite E1 in Hm by done. by rewrite lookup_empty in Hm.
    + intros (_ & _ & c & f & i & y & Hr & _). exfalso. destruct (wf_closed s WF c f k Hr) as [cl' Hcl'].
      assert (k ∈ dom crps) as Hd; [|apply elem_of_dom in Hd as [? ?]; congruence]. unfold crps. rewrite (ea_crps _ _ _ HA). apply elem_of_dom. eauto.
Qed.
Print Assumptions C41_entity_names.

(** The samples of a state with two rows: the next row's samples, and their file. *)
Example C41_met : exists g r df g' r', run_rows true true C51_schema C54_rows = Ok (g, r) /\
  pclean_samples show_bool wide_hash 2 2 g r = Ok (df, g', r') /\ f_data df !! "School" = Some ["1"; "1"] /\ samples_file show_bool wide_hash 2 2 g r = Ok [].
Proof.
  set (gr := unwrap no_gendb (run_rows true true C51_schema C54_rows)).
  set (o := unwrap (Frame [] ∅, gr.1, gr.2) (pclean_samples show_bool wide_hash 2 2 gr.1 gr.2)).
  exists gr.1, gr.2, o.1.1, o.1.2, o.2. split_and!.
  - rewrite <- surjective_pairing. apply unwrap_ok. vm_compute. reflexivity.
  - rewrite <- !surjective_pairing. apply unwrap_ok. vm_compute. reflexivity.
  - vm_compute. reflexivity.
  - vm_compute. reflexivity.
Qed.
