(** C76 for the program in mode [irm]. *)
From Coq Require Import String Ascii.
From stdpp Require Import gmap sorting strings list.
From Coq Require Import ZArith Reals Lia.
From Verif Require Import M_base M_dist M_crp M_domain M_relation M_noisy M_irm M_hirm M_inference M_text M_io M_clusters M_restore M_heldout M_main M_logp S_inference S_heldout T_heldout
  S_crp S_crp_state S_relation S_irm S_hirm S_io S_load S_clusters P_base P_crp P_domain P_relation P_tally P_any P_irm P_irm_schema P_irm_history P_hirm P_hirm_move P_hirm_history P_hirm_trans P_hirm_ctor
  P_io P_load P_load_models P_clusters P_clusters_hirm P_restore P_restore_place P_restore_load T_irm T_hirm T_io T_load T_clusters S_restore T_restore S_main T_main.
Local Open Scope string_scope.
Local Open Scope nat_scope.

(** While all relations are observed, inference keeps an IRM consistent, with its
    declarations and its data. *)
Lemma latents_none {V} o (schema : gmap string (t_rel V)) l (ir : irm V) r st : all_observed schema -> i_schema ir = schema -> foldM (irm_latents_one o) (ir, r) l = Ok st -> st = (ir, r).
Proof.
  intros HO Hs. induction l as [|n l IH]; cbn [foldM]; [by intros [= <-]|]. intros H. apply obind_Ok in H as (st1 & H1 & H).
  unfold irm_latents_one in H1. apply obind_Ok in H1 as (t & Ht%at_Ok & H1). rewrite Hs in Ht. rewrite (HO n t Ht) in H1. injection H1 as <-. by apply IH.
Qed.
Lemma inference_irm_holds {V} lg oi late ar n (schema : gmap string (t_rel V)) : (forall i, orders_ok (oi i)) -> all_observed schema -> forall i (ir : irm V) A r ir' r', irm_holds ar ir A -> i_schema ir = schema ->
  inference_irm lg oi late i n ir r = Ok (ir', r') -> exists A', irm_holds ar ir' A' /\ i_schema ir' = schema /\ irm_data ir' = irm_data ir.
Proof.
  intros Ho HO. induction n as [|n IH]; intros i ir A r ir' r' Hh Hs H; cbn [inference_irm] in H; [injection H as <- _; by exists A|].
  destruct (late i); [injection H as <- _; by exists A|]. apply obind_Ok in H as ([ir1 r1] & H1 & H).
  assert (exists r2, irm_single_step lg (oi i) ir false r2 = Ok (ir1, r1)) as [r2 H2].
  { unfold irm_single_step in H1 |- *. apply obind_Ok in H1 as (st & Hl & H1). apply (latents_none _ _ _ _ _ _ HO Hs) in Hl as ->. by exists r. }
  destruct (single_step_spec ar lg (oi i) ir A r2 ir1 r1 Hh (Ho i) H2) as (A1 & Hh1 & (Hf & Hd & _)).
  destruct (IH (S i) ir1 A1 r1 ir' r' Hh1) as (A' & ? & ? & Hd'); [destruct Hf as (-> & _); done|done|]. exists A'. split_and!; [done|done|congruence].
Qed.
(** What every run leaves. *)
Lemma irm_ran_holds {V} (parse : string -> string -> outcome V) (walks : orders -> Prop) (schema : gmap string (t_rel V)) obs held ir names file :
  schema_lawful schema -> schema_draws_keep schema -> all_observed schema -> (forall o, walks o -> orders_ok o) ->
  irm_ran parse walks schema obs held ir names file ->
  (exists A, irm_holds (schema_arity schema) ir A) /\ i_schema ir = schema /\ (exists fwd, decodes fwd names) /\ irm_printable names ir /\
  exists o, orders_ok o /\ irm_to_txt o names (i_domains ir) [] = Ok file.
Proof.
  intros HL HD HO HW H. induction H as [lg o oi late iters r enc file lp ir Hw Hwi HE H Hp|ir0 names0 file0 lg o oi late iters r enc file lp ir _ IH Hw Hwi HE H Hp]; pose proof (HW o Hw) as Ho;
    unfold irm_main in H; rewrite HE in H; cbn [obind] in H; apply obind_Ok in H as ([ir1 r1] & H1 & H); apply obind_Ok in H as ([ir2 r2] & H2 & H); apply obind_Ok in H as (f & Hf & H).
  - assert (ir2 = ir /\ f = file) as [-> ->]. { destruct held; [apply obind_Ok in H as ([x r3] & _ & [= <- _ <-])|injection H as <- _ <-]; done. }
    unfold irm_main_start in H1. apply obind_Ok in H1 as (ir0 & H0 & H1). destruct (irm_new_holds schema ir0 HL H0) as (A0 & HA0 & Hs0 & _). rewrite Hs0 in HA0.
    unfold incorporate_observations in H1. apply obind_Ok in H1 as (eobs & _ & H1).
    destruct (incorporate_encoded_spec irm_ops parse _ _ _ (irm_growing_laws schema A0 HD) o eobs ir0 r ir1 r1 (base_in schema) Ho) as ((Hs & A & HA & _) & _); [| |done|].
    + split; [done|]. exists A0. split; [done|]. split; [done|done|]. intros d i Hi. by left.
    + intros n b. cbn [irm_ops op_b2n]. apply (irm_new_listed schema ir0 HL H0).
    + destruct (inference_irm_holds lg oi late _ iters schema ltac:(eauto) HO 0 ir1 A r1 ir r2 HA Hs H2) as (A' & HA' & Hs' & _).
      split_and!; [by exists A'|done|exists (enc_f enc); by eapply encoding_decodes|done|by exists o].
  - injection H as -> _ ->. destruct IH as ([A0 HA0] & Hs0 & [fwd0 Hd0] & Hp0 & o0 & Ho0 & Hf0). unfold irm_main_start in H1. unfold main_encoding in HE. rewrite HE in H1. cbn [obind] in H1. rewrite <- Hs0 in H1.
    destruct (Hp0 A0 (ih_world _ _ _ HA0)) as [P1 P2].
    destruct (C59_irm parse ir0 _ A0 o0 o fwd0 names0 enc obs file0 r ir1 r1 HA0 ltac:(by rewrite Hs0) ltac:(by rewrite Hs0) Ho0 Ho Hd0 (encoding_decodes _ _ _ _ Ho HE) P1 P2 Hf0 H1) as (Hs & (A1 & A & _ & HA & _) & _).
    rewrite Hs0 in Hs, HA. destruct (inference_irm_holds lg oi late _ iters schema ltac:(eauto) HO 0 ir1 A r1 ir r2 HA Hs H2) as (A' & HA' & Hs' & _).
    split_and!; [by exists A'|done|exists (enc_f enc); by eapply encoding_decodes|done|by exists o].
Qed.

(** After any history of runs in mode [irm], on relations that are all observed, a run that
    loads the last file, if it gets there, starts with every entity in the cluster in which
    the last run left it, under its name; further entities come from the observations only;
    and the data are the observations. *)
Theorem C76_irm_resume {V} (parse : string -> string -> outcome V) (walks : orders -> Prop) (schema : gmap string (t_rel V)) obs held ir names file o enc any_enc r ir' r' :
  schema_lawful schema -> schema_draws_keep schema -> all_observed schema -> (forall o, walks o -> orders_ok o) -> orders_ok o ->
  irm_ran parse walks schema obs held ir names file ->
  main_encoding o schema obs None = Ok enc ->
  irm_main_start parse o schema obs any_enc (Some file) r = Ok (ir', r') ->
  i_schema ir' = schema /\
  (exists A A0 A', world_holds (i_domains ir) A /\ renamed names (enc_r enc) A A0 /\ world_holds (i_domains ir') A' /\ irm_extends ir' A0 A') /\
  exists eobs, encode_observations o (enc_f enc) (fun rel => t_domains <$> schema !! rel) obs = Ok eobs /\
    forall n, loaded parse eobs (base_in schema) (base_arity schema) n ((fun _ => ∅) <$> schema !! n) (any_data <$> i_rels ir' !! n).
Proof.
  intros HL HD HO HW Ho Hran HE H1. destruct (irm_ran_holds parse walks schema obs held ir names file HL HD HO HW Hran) as ([A HA] & Hs & [fwd Hd] & Hp & o0 & Ho0 & Hf).
  unfold irm_main_start in H1. unfold main_encoding in HE. rewrite HE in H1. cbn [obind] in H1. rewrite <- Hs in H1. destruct (Hp A (ih_world _ _ _ HA)) as [P1 P2].
  destruct (C59_irm parse ir _ A o0 o fwd names enc obs file r ir' r' HA ltac:(by rewrite Hs) ltac:(by rewrite Hs) Ho0 Ho Hd (encoding_decodes _ _ _ _ Ho HE) P1 P2 Hf H1) as (Hs' & (A0 & A' & Hren & HA' & Hext) & Hld).
  rewrite Hs in Hs', Hld. split_and!; [done| |done]. exists A, A0, A'. split_and!; [apply HA|done|apply HA'|done].
Qed.
Print Assumptions C76_irm_resume.

(** What a run that starts afresh prints for held-out observations. *)
Theorem C76_irm_prints_heldout {V} (parse : string -> string -> outcome V) (schema : gmap string (t_rel V)) obs held lg o oi late iters r file lp ir enc :
  schema_lawful schema -> schema_draws_keep schema -> all_observed schema -> orders_ok o -> (forall i, orders_ok (oi i)) ->
  main_encoding o schema obs held = Ok enc ->
  irm_main parse lg o oi late iters schema obs held None r = Ok (file, lp, ir) ->
  (exists eobs, encode_observations o (enc_f enc) (fun rel => t_domains <$> schema !! rel) obs = Ok eobs /\
    forall n, loaded parse eobs (base_in schema) (base_arity schema) n ((fun _ => ∅) <$> schema !! n) (any_data <$> i_rels ir !! n)) /\
  match held, lp with
  | None, None => True
  | Some held, Some x => exists l r1 r2, irm_logp ir l r1 = Ok (x, r2) /\
      forall rel, Forall2 (scored_as parse (enc_f enc) (fun rel => t_domains <$> schema !! rel) rel) (default [] (held !! rel)) (filter (fun ob : string * items_t * V => ob.1.1 = rel) l)
  | _, _ => False
  end.
Proof.
  intros HL HD HO Ho Hoi HE H. unfold irm_main in H. rewrite HE in H. cbn [obind] in H. apply obind_Ok in H as ([ir1 r1] & H1 & H). apply obind_Ok in H as ([ir2 r2] & H2 & H). apply obind_Ok in H as (f & _ & H).
  unfold irm_main_start in H1. apply obind_Ok in H1 as (ir0 & H0 & H1). destruct (irm_new_holds schema ir0 HL H0) as (A0 & HA0 & Hs0 & _ & Hdat0). rewrite Hs0 in HA0.
  destruct (C29_effect_irm parse schema ir0 [] ir0 o enc obs r ir1 r1 HL H0 (Forall_nil_2 _) eq_refl Ho H1) as (eobs & He & Hld).
  unfold incorporate_observations in H1. apply obind_Ok in H1 as (eobs' & _ & H1).
  destruct (incorporate_encoded_spec irm_ops parse _ _ _ (irm_growing_laws schema A0 HD) o eobs' ir0 r ir1 r1 (base_in schema) Ho) as ((Hs & A & HA & _) & _); [| |done|].
  { split; [done|]. exists A0. split; [done|]. split; [done|done|]. intros d i Hi. by left. }
  { intros n b. cbn [irm_ops op_b2n]. apply (irm_new_listed schema ir0 HL H0). }
  destruct (inference_irm_holds lg oi late _ iters schema Hoi HO 0 ir1 A r1 ir2 r2 HA Hs H2) as (A' & _ & Hs' & Hdat).
  assert (ir2 = ir) as ->. { destruct held; [apply obind_Ok in H as ([x r3] & _ & [= _ _ <-])|injection H as _ _ <-]; done. } split.
  - exists eobs. split; [done|]. intros n. specialize (Hld n).
    assert ((any_data <$> i_rels ir !! n) = (any_data <$> i_rels ir1 !! n)) as ->. { rewrite <- !lookup_fmap. change (irm_data ir !! n = irm_data ir1 !! n). by rewrite Hdat. }
    assert ((any_data <$> i_rels ir0 !! n) = (fun _ => ∅) <$> schema !! n) as E; [|by rewrite E in Hld].
    pose proof (ih_schema _ _ _ HA0 n) as Hsc. rewrite Hs0 in Hsc. destruct (schema !! n), (i_rels ir0 !! n) as [x|] eqn:Ex; try done. cbn. by rewrite (Hdat0 n x Ex).
  - destruct held as [held|]; [|by injection H as _ <-]. apply obind_Ok in H as ([x r3] & H & [= _ <-]).
    destruct (C74_scores_the_file_irm parse o ir (enc_f enc) held r2 x r3 Ho H) as (k & Hk & Hsc). exists k, r2, r3. split; [exact Hk|]. intros rel. specialize (Hsc rel). by rewrite Hs' in Hsc.
Qed.
Print Assumptions C76_irm_prints_heldout.
(** Its hypotheses, with a held-out observation. *)
Example C76_irm_heldout_met : exists enc file x ir, orders_ok some_orders /\
  schema_lawful C76_schema /\ schema_draws_keep C76_schema /\ all_observed C76_schema /\
  main_encoding some_orders C76_schema C76_obs (Some {[ "p" := [(["bob"], "1")] ]}) = Ok enc /\
  irm_main C29_parse ln some_orders (fun _ => some_orders) (fun _ => true) 7 C76_schema C76_obs (Some {[ "p" := [(["bob"], "1")] ]}) None [0; 1] = Ok (file, Some x, ir).
Proof.
  assert ((match main_encoding some_orders C76_schema C76_obs (Some {[ "p" := [(["bob"], "1")] ]}) with Ok _ => true | _ => false end &&
    match irm_main C29_parse ln some_orders (fun _ => some_orders) (fun _ => true) 7 C76_schema C76_obs (Some {[ "p" := [(["bob"], "1")] ]}) None [0; 1] with Ok (_, Some _, _) => true | _ => false end) = true) as [H1 H2]%andb_prop by (vm_compute; reflexivity).
  destruct C76_runs_met as (_ & _ & _ & _ & _ & _ & _ & HL & HD & HR & HO & Ho & _).
  destruct (main_encoding _ _ _ _) as [enc| | | | |] eqn:E1; [|discriminate H1..]. destruct (irm_main _ _ _ _ _ _ _ _ _ _ _) as [[[file [x|]] h]| | | | |] eqn:E2; [|discriminate H2..].
  exists enc, file, x, h. split_and!; [exact Ho|exact HL|exact HD|exact HO|reflexivity|reflexivity].
Qed.

(** The same defect as in mode [hirm]. *)
Definition irm_names_in (file : text) : list string :=
  match load_clusters_irm file with
  | Ok cl => merge_sort str_le (remove_dups (q ← map_to_list cl; r ← map_to_list q.2; r.2))
  | _ => []
  end.
Theorem C76_irm_resume_heldout_refuted : exists r file ir r' file2 lp ir2,
  irm_main C29_parse ln some_orders (fun _ => some_orders) (fun _ => false) 0 C76_schema C76_obs None None r = Ok (file, None, ir) /\
  irm_main C29_parse ln some_orders (fun _ => some_orders) (fun _ => false) 0 C76_schema C76_obs (Some C76_held) (Some file) r' = Ok (file2, Some lp, ir2) /\
  irm_names_in file = ["ann"; "bob"] /\ irm_names_in file2 = ["ann"; "eve"].
Proof.
  assert ((match irm_main C29_parse ln some_orders (fun _ => some_orders) (fun _ => false) 0 C76_schema C76_obs None None [0; 1] with
   | Ok (file, None, _) => match irm_main C29_parse ln some_orders (fun _ => some_orders) (fun _ => false) 0 C76_schema C76_obs (Some C76_held) (Some file) [0; 1] with
     | Ok (file2, Some _, _) => (irm_names_in file, irm_names_in file2) | _ => ([], []) end | _ => ([], []) end) = (["ann"; "bob"], ["ann"; "eve"])) as H by (vm_compute; reflexivity).
  destruct (irm_main C29_parse ln some_orders (fun _ => some_orders) (fun _ => false) 0 C76_schema C76_obs None None [0; 1]) as [[[file [lp|]] ir]| | | | |] eqn:E1; [discriminate H| |discriminate H..].
  destruct (irm_main C29_parse ln some_orders (fun _ => some_orders) (fun _ => false) 0 C76_schema C76_obs (Some C76_held) (Some file) [0; 1]) as [[[file2 [lp|]] ir2]| | | | |] eqn:E2; [|discriminate H..].
  injection H as H1 H2. exists [0; 1], file, ir, [0; 1], file2, lp, ir2. split_and!; [exact E1|exact E2|exact H1|exact H2].
Qed.
Print Assumptions C76_irm_resume_heldout_refuted.

(** A run and one that resumes it meet the hypotheses of [C76_irm_resume]. *)
Example C76_irm_met : exists ir names file enc r ir' r', schema_lawful C76_schema /\ schema_draws_keep C76_schema /\ all_observed C76_schema /\ orders_ok some_orders /\
  irm_ran C29_parse orders_ok C76_schema C76_obs None ir names file /\ main_encoding some_orders C76_schema C76_obs None = Ok enc /\
  irm_main_start C29_parse some_orders C76_schema C76_obs enc (Some file) r = Ok (ir', r') /\ irm_names_in file = ["ann"; "bob"].
Proof.
  destruct C76_runs_met as (_ & _ & _ & _ & _ & _ & _ & HL & HD & HR & HO & Ho & _).
  assert ((match main_encoding some_orders C76_schema C76_obs None with
    | Ok enc => match irm_main C29_parse ln some_orders (fun _ => some_orders) (fun _ => true) 7 C76_schema C76_obs None None [0; 1] with
      | Ok (file, _, ir) => match irm_main C29_parse ln some_orders (fun _ => some_orders) (fun _ => true) 7 C76_schema C76_obs None (Some file) [0; 1] with
        | Ok (file2, _, ir2) => match irm_main_start C29_parse some_orders C76_schema C76_obs enc (Some file2) [1; 0] with Ok _ => (world_ok (enc_r enc) (i_domains ir), world_ok (enc_r enc) (i_domains ir2), irm_names_in file2) | _ => (false, false, []) end
        | _ => (false, false, []) end | _ => (false, false, []) end | _ => (false, false, []) end) = (true, true, ["ann"; "bob"])) as H by (vm_compute; reflexivity).
  destruct (main_encoding some_orders C76_schema C76_obs None) as [enc| | | | |] eqn:E1; [|discriminate H..].
  destruct (irm_main C29_parse ln some_orders (fun _ => some_orders) (fun _ => true) 7 C76_schema C76_obs None None [0; 1]) as [[[file lp] ir]| | | | |] eqn:E2; [|discriminate H..].
  destruct (irm_main C29_parse ln some_orders (fun _ => some_orders) (fun _ => true) 7 C76_schema C76_obs None (Some file) [0; 1]) as [[[file2 lp2] ir2]| | | | |] eqn:E3; [|discriminate H..].
  destruct (irm_main_start C29_parse some_orders C76_schema C76_obs enc (Some file2) [1; 0]) as [[ir3 r3]| | | | |] eqn:E4; [|discriminate H..].
  injection H as Hk1 Hk2 Hn.
  assert (irm_printable (enc_r enc) ir) as P1 by (intros A HA; by destruct (world_ok_sound _ _ A Hk1 HA) as (? & ? & _)).
  assert (irm_printable (enc_r enc) ir2) as P2 by (intros A HA; by destruct (world_ok_sound _ _ A Hk2 HA) as (? & ? & _)).
  pose proof (irm_ran_fresh C29_parse orders_ok C76_schema C76_obs None ln some_orders (fun _ => some_orders) (fun _ => true) 7 [0; 1] enc file lp ir Ho (fun _ => Ho) E1 E2 P1) as R1.
  pose proof (irm_ran_resumed C29_parse orders_ok C76_schema C76_obs None ir (enc_r enc) file ln some_orders (fun _ => some_orders) (fun _ => true) 7 [0; 1] enc file2 lp2 ir2 R1 Ho (fun _ => Ho) E1 E3 P2) as R2.
  exists ir2, (enc_r enc), file2, enc, [1; 0], ir3, r3. split_and!; [exact HL|exact HD|exact HO|exact Ho|exact R2|reflexivity|exact E4|exact Hn].
Qed.
