(** C76: a run of the program that loads saved clusters goes on where the run that saved them stopped. *)
From Coq Require Import String Ascii.
From stdpp Require Import gmap sorting strings list.
From Coq Require Import ZArith Reals Lia.
From Verif Require Import M_base M_dist M_crp M_domain M_relation M_noisy M_irm M_hirm M_inference M_text M_io M_clusters M_restore M_heldout M_main M_logp S_inference S_heldout P_infer_ok T_heldout
  S_crp S_crp_state S_relation S_irm S_hirm S_io S_load S_clusters P_base P_crp P_domain P_relation P_tally P_any P_irm P_irm_schema P_irm_history P_hirm P_hirm_move P_hirm_history P_hirm_trans P_hirm_ctor
  P_io P_load P_load_models P_clusters P_clusters_hirm P_restore P_restore_place P_restore_load T_irm T_hirm T_io T_load T_clusters S_restore T_restore S_main.
Local Open Scope string_scope.
Local Open Scope nat_scope.

Lemma finish_file {V} (parse : string -> string -> outcome V) o enc held h r file lp r' :
  main_finish parse o enc held h r = Ok (file, lp, r') -> hirm_to_txt o (enc_r enc) h = Ok file.
Proof.
  unfold main_finish. intros H. apply obind_Ok in H as (f & Hf & H). destruct held as [held|]; [|by injection H as <- _ _].
  apply obind_Ok in H as ([l r1] & _ & H). by injection H as <- _ _.
Qed.
Lemma inferred_holds {V} (h h' : hirm V) a : inferred h h' -> hirm_holds h a ->
  (exists a', hirm_holds h' a') /\ h_schema h' = h_schema h /\ hirm_data h' = hirm_data h.
Proof. intros (cs & Hrun & Hs & Hd) Hh. by destruct (hirm_run_spec h cs h' Hrun a Hh) as (H1 & _). Qed.
(** Every sequence of inference calls is such. *)
Lemma inference_inferred {V} (h : hirm V) cs h' a : hirm_run h cs h' -> Forall inference cs -> hirm_holds h a -> inferred h h'.
Proof. intros Hrun Hc Hh. exists cs. by destruct (inference_run h cs h' a Hrun Hc Hh) as (_ & ? & ?). Qed.
(** What every run leaves. *)
Lemma ran_holds {V} (parse : string -> string -> outcome V) (walks : orders -> Prop) (schema : gmap string (t_rel V)) obs held h names file :
  schema_lawful schema -> schema_draws_keep schema -> (forall o, walks o -> orders_ok o) ->
  ran parse walks schema obs held h names file ->
  (exists a, hirm_holds h a) /\ h_schema h = schema /\ (exists fwd, decodes fwd names) /\ hirm_printable names h /\
  exists o, orders_ok o /\ hirm_to_txt o names h = Ok file.
Proof.
  intros HL HD HW H. induction H as [o enc r h1 r1 h r2 file lp r3 Hw HE Hs Hr Hp Hf|h0 names0 file0 o enc r h1 r1 h r2 file lp r3 _ IH Hw HE Hs Hr Hp Hf].
  - pose proof (HW o Hw) as Ho. unfold main_start in Hs. apply obind_Ok in Hs as ([h0 r0] & H0 & Hs).
    destruct (proj1 (hirm_new_spec schema r HL) _ _ H0) as [_ Hs0].
    destruct (C29_effect parse schema r h0 r0 [] h0 o enc obs r0 h1 r1 HL H0 (gentle_nil h0) ltac:(by rewrite Hs0) Ho Hs) as (Hs1 & _ & [a1 Hh1] & _).
    destruct (inferred_holds h1 h a1 Hr Hh1) as (Ha & Hsch & _). split_and!; [done|congruence| |done|exists o; split; [done|by eapply finish_file]].
    exists (enc_f enc). by eapply encoding_decodes.
  - destruct IH as ([a0 Hh0] & Hs0 & [fwd0 Hd0] & Hp0 & o0 & Ho0 & Hf0). pose proof (HW o Hw) as Ho. unfold main_start, main_load in Hs. unfold main_encoding in HE. rewrite HE in Hs. cbn [obind] in Hs.
    pose proof (encoding_decodes _ _ _ _ Ho HE) as Hdec. rewrite <- Hs0 in Hs.
    destruct (C59_effect parse h0 a0 o0 o names0 enc obs file0 r h1 r1 fwd0 Hh0 ltac:(by rewrite Hs0) Ho0 Ho Hd0 Hdec Hp0 Hf0 Hs) as ([Rs Rt Ri] & [a1 Hh1] & _).
    destruct (inferred_holds h1 h a1 Hr Hh1) as (Ha & Hsch & _). split_and!; [done|congruence|by eexists|done|exists o; split; [done|by eapply finish_file]].
Qed.

(** After any history of runs, each walking its hash containers in its own orders, a run that
    loads the last file, if it gets there, starts with every relation in the cluster in which
    the last run left it and every entity in its cluster, under its name, though the number
    that stands for the name may be another; further entities come from the observations
    only; and the data are the observations, as [S_load] says. *)
Theorem C76_resume {V} (parse : string -> string -> outcome V) (walks : orders -> Prop) (schema : gmap string (t_rel V)) obs held h names file o enc any_enc r h' r' :
  schema_lawful schema -> schema_draws_keep schema -> (forall o, walks o -> orders_ok o) -> orders_ok o ->
  ran parse walks schema obs held h names file ->
  main_encoding o schema obs None = Ok enc ->
  main_start parse o schema obs any_enc (Some file) r = Ok (h', r') ->
  restored names (enc_r enc) h h' /\ (exists a', hirm_holds h' a') /\
  exists eobs, encode_observations o (enc_f enc) (fun rel => t_domains <$> schema !! rel) obs = Ok eobs /\
    forall n, loaded parse eobs (base_in schema) (base_arity schema) n ((fun _ => ∅) <$> schema !! n) (hirm_data h' !! n).
Proof.
  intros HL HD HW Ho Hran HE Hs. destruct (ran_holds parse walks schema obs held h names file HL HD HW Hran) as ([a Hh] & Hsch & [fwd Hd] & Hp & o0 & Ho0 & Hf).
  unfold main_start, main_load in Hs. unfold main_encoding in HE. rewrite HE in Hs. cbn [obind] in Hs. rewrite <- Hsch in Hs.
  destruct (C59_effect parse h a o0 o names enc obs file r h' r' fwd Hh ltac:(by rewrite Hsch) Ho0 Ho Hd (encoding_decodes _ _ _ _ Ho HE) Hp Hf Hs) as (HR & Ha' & eobs & He & Hld).
  rewrite Hsch in He, Hld. split; [done|]. split; [done|]. by exists eobs.
Qed.
Print Assumptions C76_resume.

Lemma start_data {V} (parse : string -> string -> outcome V) o (schema : gmap string (t_rel V)) obs enc r h1 r1 : schema_lawful schema -> schema_draws_keep schema -> orders_ok o ->
  main_start parse o schema obs enc None r = Ok (h1, r1) ->
  exists eobs, encode_observations o (enc_f enc) (fun rel => t_domains <$> schema !! rel) obs = Ok eobs /\
    forall n, loaded parse eobs (base_in schema) (base_arity schema) n ((fun _ => ∅) <$> schema !! n) (hirm_data h1 !! n).
Proof.
  intros HL HD Ho Hs. unfold main_start in Hs. apply obind_Ok in Hs as ([h0 r0] & H0 & Hs).
  destruct (proj1 (hirm_new_spec schema r HL) _ _ H0) as [Hb0 Hs0]. pose proof Hb0 as ([a0 Hh0] & _ & _ & Hdat0).
  destruct (C29_effect parse schema r h0 r0 [] h0 o enc obs r0 h1 r1 HL H0 (gentle_nil h0) ltac:(by rewrite Hs0) Ho Hs) as (Hs1 & _ & [a1 Hh1] & eobs & He & Hld).
  rewrite Hs0 in He, Hld. exists eobs. split; [done|].
  intros n. specialize (Hld n). assert (hirm_data h0 !! n = (fun _ => ∅) <$> schema !! n) as E; [|by rewrite E in Hld].
  rewrite <- Hs0. destruct (h_schema h0 !! n) as [ty|] eqn:Ety; cbn.
  - destruct (member h0 a0 n ty Hh0 Ety) as (? & ? & ? & ? & x & _ & _ & _ & _ & _ & _ & _ & _ & Hx).
    assert (hirm_data h0 !! n = Some (any_data x)) as Hx' by by rewrite (hirm_data_lookup h0 a0 n Hh0), Hx. rewrite Hx'. f_equal. by eapply Hdat0.
  - unfold hirm_data. by rewrite map_lookup_imap, Ety.
Qed.
(** What a run leaves when hash containers are always walked in the same orders and there are
    no held-out observations. *)
Lemma ran_data {V} (parse : string -> string -> outcome V) o (schema : gmap string (t_rel V)) obs h names file :
  schema_lawful schema -> schema_draws_keep schema -> orders_ok o ->
  ran parse (eq o) schema obs None h names file ->
  exists enc eobs, main_encoding o schema obs None = Ok enc /\ names = enc_r enc /\
    encode_observations o (enc_f enc) (fun rel => t_domains <$> schema !! rel) obs = Ok eobs /\
    forall n, loaded parse eobs (base_in schema) (base_arity schema) n ((fun _ => ∅) <$> schema !! n) (hirm_data h !! n).
Proof.
  intros HL HD Ho H.
  assert (forall o', o = o' -> orders_ok o') as HW by (by intros ? <-).
  destruct H as [? enc r h1 r1 h r2 file lp r3 <- HE Hs Hr Hp Hf|h0 names0 file0 ? enc r h1 r1 h r2 file lp r3 H <- HE Hs Hr Hp Hf].
  - destruct (start_data parse o schema obs enc r h1 r1 HL HD Ho Hs) as (eobs & He & Hld). destruct Hr as (cs & _ & _ & Hdat).
    exists enc, eobs. rewrite Hdat. by split_and!.
  - destruct (C76_resume parse (eq o) schema obs None h0 names0 file0 o enc enc r h1 r1 HL HD HW Ho H HE Hs) as (_ & [a1 Hh1] & eobs & He & Hld).
    destruct (inferred_holds h1 h a1 Hr Hh1) as (_ & _ & Hdat). exists enc, eobs. rewrite Hdat. by split_and!.
Qed.

Lemma encode_some o f dm (obs : observations) eobs n l : orders_ok o -> encode_observations o f dm obs = Ok eobs -> obs !! n = Some l -> l <> [] -> is_Some (eobs !! n).
Proof.
  intros Ho H Hn Hl. unfold encode_observations in H. destruct (encode_lookup f dm obs _ (o_names_nodup o _ Ho) _ _ H n) as [_ Y].
  destruct Y as (ds & l' & _ & HF & ->); [rewrite in_o_names by done; apply elem_of_dom; eauto|]. rewrite Hn in HF. cbn in HF.
  destruct HF as [|x y l l' _ _]; [done|]. clear. change (is_Some (push_all (push ∅ n y) n l' !! n)).
  assert (is_Some (push (∅ : encoded) n y !! n)) as Hs by (unfold push; rewrite lookup_insert; eauto). revert Hs. generalize (push (∅ : encoded) n y).
  induction l' as [|z l' IH]; intros acc Hs; [done|]. change (is_Some (push_all (push acc n z) n l' !! n)). apply IH. unfold push. rewrite lookup_insert. eauto.
Qed.
(** Without held-out observations the numbers are the same too: the run starts with the
    relations and the entities in exactly the clusters in which the last run left them, and
    with exactly its data for every relation of the file of observations, and data for the
    same tuples for the others. *)
Theorem C76_resume_exact {V} (parse : string -> string -> outcome V) (schema : gmap string (t_rel V)) obs h names file o any_enc r h' r' :
  schema_lawful schema -> schema_draws_keep schema -> orders_ok o ->
  ran parse (eq o) schema obs None h names file ->
  main_start parse o schema obs any_enc (Some file) r = Ok (h', r') ->
  (forall n, table_of h' n = table_of h n) /\
  (forall t, match h_irms h !! t, h_irms h' !! t with
     | Some ir, Some ir' => forall A, world_holds (i_domains ir) A -> world_holds (i_domains ir') A
     | None, None => True | _, _ => False end) /\
  (forall n, (dom <$> hirm_data h' !! n) = (dom <$> hirm_data h !! n)) /\
  (forall n l, obs !! n = Some l -> l <> [] -> hirm_data h' !! n = hirm_data h !! n).
Proof.
  intros HL HD Ho Hran Hst. assert (forall o', o = o' -> orders_ok o') as HW by (by intros ? <-).
  destruct (ran_data parse o schema obs h names file HL HD Ho Hran) as (E & eobs & HE & -> & He & Hld).
  destruct (ran_holds parse (eq o) schema obs None h (enc_r E) file HL HD HW Hran) as ([a Hh] & Hsch & _ & Hp & _).
  destruct (C76_resume parse (eq o) schema obs None h (enc_r E) file o E any_enc r h' r' HL HD HW Ho Hran HE Hst) as ([Rs Rt Ri] & [a' Hh'] & eobs' & He' & Hld').
  assert (eobs' = eobs) as -> by congruence. pose proof (encoding_decodes _ _ _ _ Ho HE) as Hdec.
  assert (forall n, (dom <$> hirm_data h' !! n) = (dom <$> hirm_data h !! n) /\ (is_Some (eobs !! n) -> hirm_data h' !! n = hirm_data h !! n)) as Hdd.
  { intros n. specialize (Hld n). specialize (Hld' n). destruct (schema !! n) as [ty|] eqn:Ety; cbn in Hld, Hld'.
    - assert (forall k ak, hirm_holds k ak -> h_schema k = schema -> exists d, hirm_data k !! n = Some d) as Hex.
      { intros k ak Hk Hks. rewrite <- Hks in Ety. destruct (member k ak n ty Hk Ety) as (? & ? & ? & ? & x & _ & _ & _ & _ & _ & _ & _ & _ & Hx).
        exists (any_data x). by rewrite (hirm_data_lookup k ak n Hk), Hx. }
      destruct (Hex h a Hh) as [d1 E1]; [congruence|]. destruct (Hex h' a' Hh') as [d' E']; [congruence|]. rewrite E1, E' in *.
      destruct (loaded_same parse eobs _ _ n d' d1 Hld' Hld) as [Hdom Heq]. split; [cbn; by rewrite Hdom|]. intros Hi. f_equal. by apply Heq.
    - assert (forall k : hirm V, h_schema k = schema -> hirm_data k !! n = None) as Hno by (intros k Hk; unfold hirm_data; by rewrite map_lookup_imap, Hk, Ety).
      rewrite (Hno h'), (Hno h) by congruence. done. }
  split_and!; [done| |by apply Hdd| ].
  2: { intros n l Hn Hl. apply Hdd. by eapply encode_some. }
  intros t. specialize (Ri t). destruct (h_irms h !! t) as [ir|] eqn:Hir, (h_irms h' !! t) as [ir'|] eqn:Hir'; try done.
  intros A HA. destruct (irm_at_holds h' a' t ir' Hh' Hir') as [A' HA']. destruct (Ri A A' HA (ih_world _ _ _ HA')) as (A0 & Hren & Hext).
  rewrite (renamed_self _ _ _ _ Hdec Hren) in Hext. assert (A' = A) as <-; [|apply HA'].
  destruct Hext as [Ed Es Eo]. assert (forall d i, seat A' d i = seat A d i) as Hseat.
  { intros d i. destruct (seat A d i) as [c|] eqn:Esa; [by apply Es|]. destruct (seat A' d i) as [c|] eqn:Esa'; [|done]. exfalso.
    destruct (Eo d i) as [[? ?]|(n & ty & m & items & Hty & Htn & Hm & Hits & Hmen)]; [rewrite Esa'; eauto|congruence|].
    rewrite Rs in Hty. destruct (Hdd n) as [Hdom _]. rewrite Hm in Hdom. cbn in Hdom. destruct (hirm_data h !! n) as [mh|] eqn:Emh; [|done].
    cbn in Hdom. injection Hdom as Hdom. destruct (member h a n ty Hh Hty) as (rc & tb & ir2 & A2 & x & _ & _ & Htb & Hir2 & HA2 & _ & Hrn & Htx & Hx).
    rewrite Rt in Htn. assert (tb = t) as -> by congruence. assert (ir2 = ir) as -> by congruence. rewrite (world_holds_fun _ _ _ HA (ih_world _ _ _ HA2)) in Esa.
    destruct (any_holds_mentions _ _ x d i (ih_rels _ _ _ HA2 n x Hrn)) as [c' Hc']; [|congruence].
    exists items. rewrite (hirm_data_lookup h a n Hh), Hx in Emh. injection Emh as <-. split; [|by rewrite Htx, any_type_t_domains in Hmen].
    apply elem_of_dom. rewrite <- Hdom. by apply elem_of_dom. }
  apply map_eq. intros d. unfold seat in Hseat. specialize (Hseat d). assert (is_Some (A' !! d) <-> is_Some (A !! d)) as Hss by (rewrite <- !elem_of_dom; by rewrite Ed).
  destruct (A' !! d) as [b'|], (A !! d) as [b|]; [f_equal; by apply map_eq| | |done].
  - destruct (proj1 Hss) as [? ?]; [eauto|done].
  - destruct (proj2 Hss) as [? ?]; [eauto|done].
Qed.
Print Assumptions C76_resume_exact.

(** ** The program itself *)
(** A model as inference meets it stays one when observations are loaded into it. *)
Lemma ready_laws {V} (h0 : hirm V) : schema_draws_keep (h_schema h0) -> ops_laws hirm_ops (fun h => ready h /\ consistent_with h0 h) hirm_dat (base_arity (h_schema h0)).
Proof.
  intros HD. pose proof (hirm_ops_laws_consistent h0 HD) as L. split.
  - intros m n items v r m' r' [HR HI] H. destruct (l_inc _ _ _ _ L m n items v r m' r' HI H) as [HI' Hd]. split; [|done]. split; [|done].
    apply (ready_run m [HIncorporate n items v r] m' HR). econstructor; [done|done| |constructor]. cbn [hirm_do]. cbn [hirm_ops op_incorporate] in H. by rewrite H.
  - intros m n items r v m' r' [HR HI] H. cbn [hirm_ops op_sample_at] in H. pose proof HI as ([a Hh] & Hs & _).
    apply (hirm_sample_at_keeps m a n items r v m' r' Hh) in H as ->; [|by destruct Hs as (-> & _)]. done.
  - intros m n x [_ HI]. apply (l_get _ _ _ _ L), HI.
  - intros m n x nz b [_ HI]. apply (l_base _ _ _ _ L), HI.
Qed.
Lemma incorporate_ready {V} (parse : string -> string -> outcome V) o (h : hirm V) E obs r h' r' : orders_ok o -> schema_draws_keep (h_schema h) -> ready h ->
  incorporate_observations hirm_ops parse o h E obs r = Ok (h', r') -> ready h'.
Proof.
  intros Ho HD HR H. pose proof HR as [[a Hh] _ Hl _]. unfold incorporate_observations in H. apply obind_Ok in H as (eobs & _ & H).
  destruct (incorporate_encoded_spec hirm_ops parse _ _ _ (ready_laws h HD) o eobs h r h' r' (base_in (h_schema h)) Ho) as ([HR' _] & _); [|  |done|done].
  - split; [done|]. split_and!; [by exists a|done|done].
  - intros n b. unfold listed, base_in. cbn [hirm_ops op_b2n]. rewrite (Hl b n). split.
    + intros (t & -> & Ht). done.
    + destruct (h_schema h !! n) as [t|]; [|done]. intros Ht. by exists t.
Qed.
Lemma set_cluster_bases {V} o (h : hirm V) n t r h' r' : hirm_set_cluster o h n t r = Ok (h', r') -> h_b2n h' = h_b2n h.
Proof.
  unfold hirm_set_cluster. intros H. apply obind_Ok in H as (? & _ & H). apply obind_Ok in H as (? & _ & H). apply obind_Ok in H as (? & _ & H). apply obind_Ok in H as (? & _ & H).
  apply obind_Ok in H as (? & _ & H). apply obind_Ok in H as (? & _ & H). apply obind_Ok in H as (? & _ & H). cbv zeta in H. apply obind_Ok in H as (? & _ & H). apply obind_Ok in H as ([? ?] & _ & H).
  apply obind_Ok in H as (? & _ & H). apply obind_Ok in H as (? & _ & H). apply obind_Ok in H as (? & _ & H). apply obind_Ok in H as (? & _ & H). by injection H as <- _.
Qed.
Lemma place_bases {V} o schema fwd rels irms r (h : hirm V) r' : hirm_place o schema fwd rels irms r = Ok (h, r') -> bases_listed h.
Proof.
  unfold hirm_place. intros H. apply obind_Ok in H as ([h1 r1] & H1 & H). apply obind_Ok in H as ([h2 r2] & H2 & H). apply obind_Ok in H as (? & _ & H). injection H as <- _.
  assert (bases_listed h1) as Hb1.
  { change (bases_listed ((h1, r1).1)). refine (foldM_inv _ (fun st : hirm V * rng => bases_listed st.1) _ (hirm_empty, r) (h1, r1) _ _ H1).
    - intros b ns Hb. cbn in Hb. by rewrite lookup_empty in Hb.
    - intros [h r0] name [h' r0'] _ Hb Hd. unfold declare_relation in Hd. apply obind_Ok in Hd as (t & _ & Hd). apply obind_Ok in Hd as ([ha ra] & Ha & Hd). apply obind_Ok in Hd as (? & _ & Hd).
      unfold bases_listed. cbn [fst]. rewrite (set_cluster_bases _ _ _ _ _ _ _ Hd). by eapply add_bases. }
  unfold bases_listed. assert (h_b2n h2 = h_b2n h1) as ->; [|exact Hb1].
  refine (foldM_inv _ (fun st : hirm V * rng => h_b2n st.1 = h_b2n h1) _ (h1, r1) (h2, r2) _ _ H2); [done|].
  intros [h r0] t [h' r0'] _ Hb Hd. unfold place_irm in Hd. apply obind_Ok in Hd as (? & _ & Hd). cbv zeta in Hd. apply obind_Ok in Hd as ([ha ra] & Ha & Hd).
  apply obind_Ok in Hd as (ir & _ & Hd). apply obind_Ok in Hd as (cl & _ & Hd). apply obind_Ok in Hd as (? & _ & Hd). apply obind_Ok in Hd as ([W rw] & _ & Hd). injection Hd as <- _. cbn.
  refine (foldM_inv _ (fun st : hirm V * rng => h_b2n st.1 = h_b2n h1) _ (h, r0) (ha, ra) _ _ Ha); [done|].
  intros [hb rb] n [hc rc] _ Hb' Hp. unfold place_relation in Hp. apply obind_Ok in Hp as (? & _ & Hp). apply obind_Ok in Hp as (cur & _ & Hp).
  destruct (bool_decide _); [by injection Hp as <- _|]. apply obind_Ok in Hp as (? & _ & Hp). cbn. by rewrite (set_cluster_bases _ _ _ _ _ _ _ Hp).
Qed.
Lemma fresh_ready {V} (parse : string -> string -> outcome V) o (schema : gmap string (t_rel V)) obs E r h r' : schema_lawful schema -> schema_draws_keep schema -> orders_ok o ->
  main_start parse o schema obs E None r = Ok (h, r') -> ready h /\ h_schema h = schema.
Proof.
  intros HL HD Ho Hs. unfold main_start in Hs. apply obind_Ok in Hs as ([h0 r0] & H0 & Hs). destruct (proj1 (hirm_new_spec schema r HL) _ _ H0) as [_ Hs0].
  destruct (C29_effect parse schema r h0 r0 [] h0 o E obs r0 h r' HL H0 (gentle_nil h0) ltac:(by rewrite Hs0) Ho Hs) as (Hs1 & _).
  split; [|congruence]. apply (incorporate_ready parse o h0 E obs r0 h r' Ho); [by rewrite Hs0| |done]. exact (reached_ready schema r h0 r0 [] h0 HL H0 (gentle_nil h0)).
Qed.
Lemma resumed_ready {V} (parse : string -> string -> outcome V) (walks : orders -> Prop) (schema : gmap string (t_rel V)) obs held h names file o E r h' r' :
  schema_lawful schema -> schema_draws_keep schema -> (forall o, walks o -> orders_ok o) -> orders_ok o ->
  ran parse walks schema obs held h names file -> main_start parse o schema obs E (Some file) r = Ok (h', r') -> ready h' /\ h_schema h' = schema.
Proof.
  intros HL HD HW Ho Hran Hs. destruct (ran_holds parse walks schema obs held h names file HL HD HW Hran) as ([a Hh] & Hsch & [fwd Hd] & Hp & o0 & Ho0 & Hf).
  unfold main_start, main_load in Hs. apply obind_Ok in Hs as (enc & HE & Hs). unfold hirm_from_txt in Hs. apply obind_Ok in Hs as ([rels irms] & Hl & Hs). apply obind_Ok in Hs as ([hp r1] & Hpl & Hs).
  destruct (hirm_clusters o0 names h a Hh Ho0 Hp) as (file' & rels' & irms' & Hf' & Hl' & Dr & Di & Hr & Hsh). assert (file' = file) as -> by congruence. rewrite Hl in Hl'. injection Hl' as <- <-.
  rewrite <- Hsch in Hpl. destruct (hirm_place_spec h a Hh o Ho fwd (enc_f enc) names (enc_r enc) Hd (encoding_decodes _ _ _ _ Ho HE) Hp rels irms Dr Di Hr Hsh r) as [Hspec _].
  destruct (Hspec hp r1 Hpl) as (Hb & Hs1 & _). pose proof Hb as (Hap & _ & Hlist & _).
  assert (ready hp) as HR. { split; [done|by eapply built_closed|done|by eapply place_bases]. }
  assert (schema_draws_keep (h_schema hp)) as HDp by (by rewrite Hs1, Hsch).
  split; [exact (incorporate_ready parse o hp enc obs r1 h' r' Ho HDp HR Hs)|].
  unfold incorporate_observations in Hs. apply obind_Ok in Hs as (eobs & _ & Hs).
  destruct (incorporate_encoded_spec hirm_ops parse _ _ _ (ready_laws hp HDp) o eobs hp r1 h' r' (base_in (h_schema hp)) Ho) as ([_ (_ & (Hs' & _) & _)] & _); [| |done|congruence].
  - split; [done|]. by split_and!.
  - intros n b. unfold listed, base_in. cbn [hirm_ops op_b2n]. rewrite (Hlist b n). split.
    + intros (t & -> & Ht). done.
    + destruct (h_schema hp !! n) as [t|]; [|done]. intros Ht. by exists t.
Qed.
(** If all relations are observed and hyperparameter steps do not fail, the inference of the
    program, for any number of iterations and wherever the time-out falls, never fails, and
    is inference in the sense of [ran]. *)
Definition all_observed {V} (schema : gmap string (t_rel V)) : Prop := forall n t, schema !! n = Some t -> t_observed t = true.
Lemma ready_infers {V} (schema : gmap string (t_rel V)) (h : hirm V) lg oi late n r : ready h -> h_schema h = schema -> all_observed schema -> schema_resamples schema -> (forall i, orders_ok (oi i)) ->
  exists h' r', inference_hirm lg oi late 0 n h r = Ok (h', r') /\ inferred h h'.
Proof.
  intros HR Hs HO Hre Ho. destruct (inference_idle lg oi late n Ho 0 h r HR) as (h' & r' & cs & H & Hg & Hs' & Hd'); [|by rewrite Hs|].
  { intros name m (t & Ht & Hf) _. rewrite Hs in Ht. rewrite (HO name t Ht) in Hf. done. }
  exists h', r'. split; [done|]. exists cs. destruct HR as [[a Hh] Hc Hl _]. by destruct (gentle_run_spec h cs h' Hg a Hh Hc Hl) as (_ & _ & ?).
Qed.
(** So every run of the program, the first or one that resumes, is a run as [ran] says. *)
Theorem C76_fresh_run {V} (parse : string -> string -> outcome V) (walks : orders -> Prop) (schema : gmap string (t_rel V)) obs held lg o oi late iters r file lp h enc :
  schema_lawful schema -> schema_draws_keep schema -> schema_resamples schema -> all_observed schema ->
  walks o -> orders_ok o -> (forall i, orders_ok (oi i)) ->
  main_encoding o schema obs held = Ok enc -> hirm_printable (enc_r enc) h ->
  hirm_main parse lg o oi late iters schema obs held None r = Ok (file, lp, h) ->
  ran parse walks schema obs held h (enc_r enc) file.
Proof.
  intros HL HD Hre HO Hw Ho Hoi HE Hp H. unfold hirm_main in H. rewrite HE in H. cbn [obind] in H. apply obind_Ok in H as ([h1 r1] & H1 & H). apply obind_Ok in H as ([h2 r2] & H2 & H).
  apply obind_Ok in H as ([[f l] r3] & H3 & H). injection H as -> -> ->. destruct (fresh_ready parse o schema obs enc r h1 r1 HL HD Ho H1) as [HR Hs].
  destruct (ready_infers schema h1 lg oi late iters r1 HR Hs HO Hre Hoi) as (h' & r' & E & Hi). rewrite E in H2. injection H2 as -> ->. by eapply ran_fresh.
Qed.
Print Assumptions C76_fresh_run.
Theorem C76_resumed_run {V} (parse : string -> string -> outcome V) (walks : orders -> Prop) (schema : gmap string (t_rel V)) obs held lg o oi late iters r h0 names0 file0 file lp h enc :
  schema_lawful schema -> schema_draws_keep schema -> schema_resamples schema -> all_observed schema ->
  (forall o, walks o -> orders_ok o) -> walks o -> (forall i, orders_ok (oi i)) ->
  ran parse walks schema obs held h0 names0 file0 ->
  main_encoding o schema obs None = Ok enc -> hirm_printable (enc_r enc) h ->
  hirm_main parse lg o oi late iters schema obs None (Some file0) r = Ok (file, lp, h) ->
  ran parse walks schema obs held h (enc_r enc) file.
Proof.
  intros HL HD Hre HO HW Hw Hoi Hran HE Hp H. pose proof (HW o Hw) as Ho. unfold hirm_main in H. rewrite HE in H. cbn [obind] in H. apply obind_Ok in H as ([h1 r1] & H1 & H). apply obind_Ok in H as ([h2 r2] & H2 & H).
  apply obind_Ok in H as ([[f l] r3] & H3 & H). injection H as -> -> ->. destruct (resumed_ready parse walks schema obs held h0 names0 file0 o enc r h1 r1 HL HD HW Ho Hran H1) as [HR Hs].
  destruct (ready_infers schema h1 lg oi late iters r1 HR Hs HO Hre Hoi) as (h' & r' & E & Hi). rewrite E in H2. injection H2 as -> ->. by eapply ran_resumed.
Qed.
Print Assumptions C76_resumed_run.

(** What a run that starts afresh prints for held-out observations: the log probability of
    exactly the held-out file under the model it ends with, where the names of the held-out
    file stand for the same entities as those of the observations the model holds.  Without
    held-out observations nothing is printed. *)
Theorem C76_prints_heldout {V} (parse : string -> string -> outcome V) (schema : gmap string (t_rel V)) obs held lg o oi late iters r file lp h enc :
  schema_lawful schema -> schema_draws_keep schema -> schema_resamples schema -> all_observed schema ->
  orders_ok o -> (forall i, orders_ok (oi i)) ->
  main_encoding o schema obs held = Ok enc ->
  hirm_main parse lg o oi late iters schema obs held None r = Ok (file, lp, h) ->
  (exists eobs, encode_observations o (enc_f enc) (fun rel => t_domains <$> schema !! rel) obs = Ok eobs /\
    forall n, loaded parse eobs (base_in schema) (base_arity schema) n ((fun _ => ∅) <$> schema !! n) (hirm_data h !! n)) /\
  match held, lp with
  | None, None => True
  | Some held, Some x => exists l r1 r2, hirm_logp o h l r1 = Ok (x, r2) /\
      forall rel, Forall2 (scored_as parse (enc_f enc) (fun rel => t_domains <$> schema !! rel) rel) (default [] (held !! rel)) (filter (fun ob : string * items_t * V => ob.1.1 = rel) l)
  | _, _ => False
  end.
Proof.
  intros HL HD Hre HO Ho Hoi HE H. unfold hirm_main in H. rewrite HE in H. cbn [obind] in H. apply obind_Ok in H as ([h1 r1] & H1 & H). apply obind_Ok in H as ([h2 r2] & H2 & H).
  apply obind_Ok in H as ([[f l] r3] & H3 & H). injection H as -> -> ->. destruct (fresh_ready parse o schema obs enc r h1 r1 HL HD Ho H1) as [HR Hs].
  destruct (ready_infers schema h1 lg oi late iters r1 HR Hs HO Hre Hoi) as (h' & r' & E & cs & _ & Hs' & Hdat). rewrite E in H2. injection H2 as -> ->. split.
  - destruct (start_data parse o schema obs enc r h1 r1 HL HD Ho H1) as (eobs & He & Hld). exists eobs. split; [done|]. by rewrite Hdat.
  - unfold main_finish in H3. apply obind_Ok in H3 as (f & _ & H3). destruct held as [held|]; [|by injection H3 as _ <- _].
    apply obind_Ok in H3 as ([x r4] & H3 & [= _ <- _]). destruct (C74_scores_the_file_hirm parse o h (enc_f enc) held r2 x r4 Ho H3) as (k & Hk & Hsc).
    exists k, r2, r4. split; [exact Hk|]. intros rel. specialize (Hsc rel). by rewrite Hs', Hs in Hsc.
Qed.
Print Assumptions C76_prints_heldout.

(** ** Loading clusters with held-out observations *)
Definition C76_schema : gmap string (t_rel bool) := {[ "p" := TClean ["d"] true tally_dist tt; "q" := TClean ["d"] true tally_dist tt ]}.
Definition C76_obs : observations := {[ "p" := [(["ann"], "1")]; "q" := [(["bob"], "0")] ]}.
Definition C76_held : observations := {[ "p" := [(["eve"], "1")] ]}.
(** The names of the entities in a file of clusters. *)
Definition names_in (file : text) : list string :=
  match load_clusters_hirm file with
  | Ok (_, irms) => merge_sort str_le (remove_dups (p ← map_to_list irms; q ← map_to_list p.2; r ← map_to_list q.2; r.2))
  | _ => []
  end.
(** A run makes and saves a model of two relations, observed for ann and for bob.  A run that
    loads the clusters and has a held-out observation of eve, and does no inference, saves
    clusters of ann and eve: the numbers of its entities are those of the observations alone,
    the names those of the observations and the held-out observations together.  So bob is
    lost, and eve, who is in no observation, is where bob was (and the log probability printed
    for the observation of eve is that of one of bob). *)
Theorem C76_resume_heldout_refuted : exists r file h r' file2 lp h2,
  hirm_main C29_parse ln some_orders (fun _ => some_orders) (fun _ => false) 0 C76_schema C76_obs None None r = Ok (file, None, h) /\
  hirm_main C29_parse ln some_orders (fun _ => some_orders) (fun _ => false) 0 C76_schema C76_obs (Some C76_held) (Some file) r' = Ok (file2, Some lp, h2) /\
  names_in file = ["ann"; "bob"] /\ names_in file2 = ["ann"; "eve"].
Proof.
  assert ((match hirm_main C29_parse ln some_orders (fun _ => some_orders) (fun _ => false) 0 C76_schema C76_obs None None [0; 0; 0; 1] with
   | Ok (file, None, _) => match hirm_main C29_parse ln some_orders (fun _ => some_orders) (fun _ => false) 0 C76_schema C76_obs (Some C76_held) (Some file) [0; 0; 0; 1] with
     | Ok (file2, Some _, _) => (names_in file, names_in file2) | _ => ([], []) end | _ => ([], []) end) = (["ann"; "bob"], ["ann"; "eve"])) as H by (vm_compute; reflexivity).
  destruct (hirm_main C29_parse ln some_orders (fun _ => some_orders) (fun _ => false) 0 C76_schema C76_obs None None [0; 0; 0; 1]) as [[[file [lp|]] h]| | | | |] eqn:E1; try discriminate H.
  destruct (hirm_main C29_parse ln some_orders (fun _ => some_orders) (fun _ => false) 0 C76_schema C76_obs (Some C76_held) (Some file) [0; 0; 0; 1]) as [[[file2 [lp|]] h2]| | | | |] eqn:E2; try discriminate H.
  injection H as H1 H2. exists [0; 0; 0; 1], file, h, [0; 0; 0; 1], file2, lp, h2. split_and!; [exact E1|exact E2|exact H1|exact H2].
Qed.
Print Assumptions C76_resume_heldout_refuted.

(** Three runs, with inference in the first two, meet the hypotheses of [C76_resume] and
    [C76_resume_exact]. *)
Definition C76_calls : list (hirm_call bool) := [HMove some_orders "r" 12 [1; 0; 1; 1; 1; 0]; HMove some_orders "s" 7 [0; 1; 1]].
Example C76_met : exists h names file enc r h' r', schema_lawful C59_schema /\ schema_draws_keep C59_schema /\ orders_ok some_orders /\
  ran C29_parse (eq some_orders) C59_schema C59_obs None h names file /\
  main_encoding some_orders C59_schema C59_obs None = Ok enc /\
  main_start C29_parse some_orders C59_schema C59_obs enc (Some file) r = Ok (h', r') /\
  table_of h' "r" = Some 12%Z /\ table_of h' "s" = Some 7%Z.
Proof.
  assert ((let* E := main_encoding some_orders C59_schema C59_obs None in
    let* (h1, r1) := main_start C29_parse some_orders C59_schema C59_obs E None [0; 1; 1; 0; 1] in
    let* h2 := foldM hirm_do h1 C59_calls in
    let* (p, _) := main_finish C29_parse some_orders E None h2 [] in
    let* (h3, r3) := main_start C29_parse some_orders C59_schema C59_obs E (Some p.1) [1; 1; 1] in
    let* h4 := foldM hirm_do h3 C76_calls in
    let* (q, _) := main_finish C29_parse some_orders E None h4 [] in
    let* (h5, r5) := main_start C29_parse some_orders C59_schema C59_obs E (Some q.1) [1; 1; 1] in
    Ok (hirm_ok (enc_r E) h2, hirm_ok (enc_r E) h4, table_of h5 "r", table_of h5 "s")) = Ok (true, true, Some 12%Z, Some 7%Z)) as H by by_compute.
  apply obind_Ok in H as (E & HE & H). apply obind_Ok in H as ([h1 r1] & H1 & H). apply obind_Ok in H as (h2 & Hc2 & H). apply obind_Ok in H as ([[file2 lp2] r2] & Hf2 & H).
  apply obind_Ok in H as ([h3 r3] & H3 & H). apply obind_Ok in H as (h4 & Hc4 & H). apply obind_Ok in H as ([[file4 lp4] r4] & Hf4 & H). apply obind_Ok in H as ([h5 r5] & H5 & [= Hok2 Hok4 Htr Hts]).
  assert (schema_draws_keep C59_schema) as HD by (destruct C59_met as (? & ? & ? & ? & ? & ? & ? & ? & ? & _ & HD & _); exact HD).
  pose proof some_orders_ok as Ho. pose proof rev_orders_ok as Ho'. cbn [fst] in H3, H5.
  assert (forall o', some_orders = o' -> orders_ok o') as HW by (by intros ? <-).
  assert (ran C29_parse (eq some_orders) C59_schema C59_obs None h2 (enc_r E) file2) as R2.
  { assert (exists a, hirm_holds h1 a) as [a1 Hh1].
    { pose proof H1 as Hs. unfold main_start in Hs. apply obind_Ok in Hs as ([h0 r0] & H0 & Hs). destruct (proj1 (hirm_new_spec C59_schema [0; 1; 1; 0; 1] C59_schema_lawful) _ _ H0) as [_ Hs0].
      by destruct (C29_effect C29_parse C59_schema [0; 1; 1; 0; 1] h0 r0 [] h0 some_orders E C59_obs r0 h1 r1 C59_schema_lawful H0 (gentle_nil h0) ltac:(by rewrite Hs0) Ho Hs) as (_ & _ & ? & _). }
    apply (ran_fresh _ _ _ _ _ some_orders E _ h1 r1 h2 [] file2 lp2 r2 eq_refl HE H1); [|by apply hirm_ok_sound|exact Hf2].
    apply (inference_inferred h1 C59_calls h2 a1); [|repeat constructor|done]. eapply run_of_foldM; [exact Hh1|exact Hc2|]. simpl. by split_and!. }
  assert (ran C29_parse (eq some_orders) C59_schema C59_obs None h4 (enc_r E) file4) as R4.
  { destruct (C76_resume C29_parse (eq some_orders) C59_schema C59_obs None h2 (enc_r E) file2 some_orders E E _ h3 r3 C59_schema_lawful HD HW Ho R2 HE H3) as (_ & [a3 Hh3] & _).
    apply (ran_resumed _ _ _ _ _ h2 (enc_r E) file2 some_orders E _ h3 r3 h4 [] file4 lp4 r4 R2 eq_refl HE H3); [|by apply hirm_ok_sound|exact Hf4].
    apply (inference_inferred h3 C76_calls h4 a3); [|repeat constructor|done]. eapply run_of_foldM; [exact Hh3|exact Hc4|]. simpl. by split_and!. }
  exists h4, (enc_r E), file4, E, [1; 1; 1], h5, r5. split_and!; [apply C59_schema_lawful|exact HD|exact Ho|exact R4|exact HE|exact H5|exact Htr|exact Hts].
Qed.

(** A run and a run that resumes it (both time out before the first iteration) meet the hypotheses of [C76_fresh_run] and [C76_resumed_run]. *)
Lemma C76_schema_each n t : C76_schema !! n = Some t -> t = TClean ["d"] true tally_dist tt.
Proof. unfold C76_schema. intros [[_ <-]|[_ [_ <-]%lookup_singleton_Some]]%lookup_insert_Some; reflexivity. Qed.
Example C76_runs_met : exists enc file lp h file2 lp2 h2,
  schema_lawful C76_schema /\ schema_draws_keep C76_schema /\ schema_resamples C76_schema /\ all_observed C76_schema /\ orders_ok some_orders /\
  main_encoding some_orders C76_schema C76_obs None = Ok enc /\ hirm_printable (enc_r enc) h /\
  hirm_main C29_parse ln some_orders (fun _ => some_orders) (fun _ => true) 7 C76_schema C76_obs None None [0; 0; 0; 1] = Ok (file, lp, h) /\
  hirm_printable (enc_r enc) h2 /\
  hirm_main C29_parse ln some_orders (fun _ => some_orders) (fun _ => true) 7 C76_schema C76_obs None (Some file) [0; 0; 0; 1] = Ok (file2, lp2, h2) /\
  names_in file = ["ann"; "bob"] /\ names_in file2 = ["ann"; "bob"] /\
  ran C29_parse orders_ok C76_schema C76_obs None h2 (enc_r enc) file2.
Proof.
  assert ((match main_encoding some_orders C76_schema C76_obs None with
    | Ok enc => match hirm_main C29_parse ln some_orders (fun _ => some_orders) (fun _ => true) 7 C76_schema C76_obs None None [0; 0; 0; 1] with
      | Ok (file, _, h) => match hirm_main C29_parse ln some_orders (fun _ => some_orders) (fun _ => true) 7 C76_schema C76_obs None (Some file) [0; 0; 0; 1] with
        | Ok (file2, _, h2) => (hirm_ok (enc_r enc) h, hirm_ok (enc_r enc) h2, names_in file, names_in file2) | _ => (false, false, [], []) end | _ => (false, false, [], []) end | _ => (false, false, [], []) end)
    = (true, true, ["ann"; "bob"], ["ann"; "bob"])) as H by (vm_compute; reflexivity).
  destruct (main_encoding some_orders C76_schema C76_obs None) as [enc| | | | |] eqn:E1; [|discriminate H..].
  destruct (hirm_main C29_parse ln some_orders (fun _ => some_orders) (fun _ => true) 7 C76_schema C76_obs None None [0; 0; 0; 1]) as [[[file lp] h]| | | | |] eqn:E3; [|discriminate H..].
  destruct (hirm_main C29_parse ln some_orders (fun _ => some_orders) (fun _ => true) 7 C76_schema C76_obs None (Some file) [0; 0; 0; 1]) as [[[file2 lp2] h2]| | | | |] eqn:E4; [|discriminate H..].
  injection H as Hk1 Hk2 Hn1 Hn2. apply hirm_ok_sound in Hk1, Hk2. pose proof some_orders_ok as Ho.
  assert (schema_lawful C76_schema) as HL. { intros n t ->%C76_schema_each. split; [by exists tally_lawful|done]. }
  assert (schema_draws_keep C76_schema) as HD. { intros n t ->%C76_schema_each s r v s' r'. cbn. by intros [= _ <- _]. }
  assert (schema_resamples C76_schema) as HR. { intros n t ->%C76_schema_each s r. cbn. eauto. }
  assert (all_observed C76_schema) as HO by (by intros n t ->%C76_schema_each).
  pose proof (C76_fresh_run C29_parse orders_ok C76_schema C76_obs None ln some_orders (fun _ => some_orders) (fun _ => true) 7 _ file lp h enc HL HD HR HO Ho Ho (fun _ => Ho) E1 Hk1 E3) as R1.
  pose proof (C76_resumed_run C29_parse orders_ok C76_schema C76_obs None ln some_orders (fun _ => some_orders) (fun _ => true) 7 _ h (enc_r enc) file file2 lp2 h2 enc HL HD HR HO ltac:(done) Ho (fun _ => Ho) R1 E1 Hk2 E4) as R2.
  exists enc, file, lp, h, file2, lp2, h2. split_and!; [exact HL|exact HD|exact HR|exact HO|exact Ho|reflexivity|exact Hk1|reflexivity|exact Hk2|exact E4|exact Hn1|exact Hn2|exact R2].
Qed.

(** The hypotheses of [C76_prints_heldout] with a held-out observation. *)
Example C76_heldout_met : exists enc file x h, orders_ok some_orders /\
  schema_lawful C76_schema /\ schema_draws_keep C76_schema /\ schema_resamples C76_schema /\ all_observed C76_schema /\
  main_encoding some_orders C76_schema C76_obs (Some {[ "p" := [(["bob"], "1")] ]}) = Ok enc /\
  hirm_main C29_parse ln some_orders (fun _ => some_orders) (fun _ => true) 7 C76_schema C76_obs (Some {[ "p" := [(["bob"], "1")] ]}) None [0; 0; 0; 1] = Ok (file, Some x, h).
Proof.
  assert ((match main_encoding some_orders C76_schema C76_obs (Some {[ "p" := [(["bob"], "1")] ]}) with Ok _ => true | _ => false end &&
    match hirm_main C29_parse ln some_orders (fun _ => some_orders) (fun _ => true) 7 C76_schema C76_obs (Some {[ "p" := [(["bob"], "1")] ]}) None [0; 0; 0; 1] with Ok (_, Some _, _) => true | _ => false end) = true) as [H1 H2]%andb_prop by (vm_compute; reflexivity).
  destruct C76_runs_met as (_ & _ & _ & _ & _ & _ & _ & HL & HD & HR & HO & Ho & _).
  destruct (main_encoding _ _ _ _) as [enc| | | | |] eqn:E1; [|discriminate H1..]. destruct (hirm_main _ _ _ _ _ _ _ _ _ _ _) as [[[file [x|]] h]| | | | |] eqn:E2; [|discriminate H2..].
  exists enc, file, x, h. split_and!; [exact Ho|exact HL|exact HD|exact HR|exact HO|reflexivity|reflexivity].
Qed.
