(** Properties of the inference loops: C64. *)
From Coq Require Import String Ascii.
From stdpp Require Import gmap strings sorting.
From Coq Require Import ZArith Reals Lia.
From Verif Require Import M_base M_math M_crp M_domain M_dist M_distributions M_strdist M_emissions M_nonconj M_relation M_noisy M_irm M_hirm M_inference
  S_crp S_crp_state S_relation S_irm S_hirm S_inference P_base P_math P_crp P_domain P_dist P_beta_bernoulli P_relation P_tally P_any P_irm P_irm_schema
  P_irm_history P_hirm P_hirm_move P_hirm_trans P_hirm_history P_hirm_ctor P_inference P_infer_ok T_irm T_dist T_hirm.
Local Open Scope string_scope.

(** * C64 *)
Lemma keeps_to_all {V} (h h' : hirm V) a : hirm_holds h a -> hirm_keeps (latent_in (h_schema h)) h h' -> keeps_all (h_schema h) (hirm_data h) (hirm_data h').
Proof.
  intros Hh (Hs & _ & _ & _ & Hk).
  assert (forall name m, hirm_data h !! name = Some m -> exists m', hirm_data h' !! name = Some m' /\ keeps_observations (latent_in (h_schema h) name) m m') as Hfwd.
  { intros name m Hm. unfold hirm_data in Hm |- *. rewrite map_lookup_imap in Hm. rewrite map_lookup_imap, Hs.
    destruct (h_schema h !! name); [|done]. simpl in *. destruct (hirm_lookup h name) as [x|] eqn:Ex; [|done]. injection Hm as <-.
    destruct (Hk name x Ex) as (x' & -> & Hkx & _). simpl. eauto. }
  split; [|done]. apply set_eq. intros name. rewrite !elem_of_dom. split.
  - unfold hirm_data at 1. rewrite map_lookup_imap, Hs. intros [m Hm]. destruct (h_schema h !! name) as [t|] eqn:Et; [|done].
    destruct (member h a name t Hh Et) as (? & ? & ? & ? & x & _ & _ & _ & _ & _ & _ & _ & _ & Hx).
    rewrite (hirm_data_lookup h a name Hh), Hx. simpl. eauto.
  - intros [m Hm]. destruct (Hfwd name m Hm) as (m' & -> & _). eauto.
Qed.

(** However many iterations of the inference loop run on a HIRM that the public calls have
    built, wherever the time-out falls, whatever the draws and the orders of hash
    containers, whether latent values are transitioned or not: if the loop returns, the
    declarations are the same, every relation still holds exactly the tuples it was given,
    and every relation that is not latent holds them with the values it was given. *)
Theorem C64_inference_keeps_observations {V} : forall (schema : gmap string (t_rel V)) r h0 r0 cs h lg o late n r1 h' r1',
  schema_lawful schema -> hirm_new schema r = Ok (h0, r0) -> hirm_run h0 cs h -> (forall i, orders_ok (o i)) ->
  inference_hirm lg o late 0 n h r1 = Ok (h', r1') ->
  h_schema h' = h_schema h /\ h_code h' = h_code h /\ keeps_all (h_schema h) (hirm_data h) (hirm_data h').
Proof.
  intros schema r h0 r0 cs h lg o late n r1 h' r1' HL H0 Hrun Ho H.
  destruct (proj1 (hirm_new_spec schema r HL) _ _ H0) as [([a0 Hh0] & _) _].
  destruct (hirm_run_spec h0 cs h Hrun a0 Hh0) as ([a Hh] & _).
  apply inference_keeps in H; [|done|by eapply holds_code_inj]. split_and!; [apply H|apply H|]. by eapply keeps_to_all.
Qed.
Print Assumptions C64_inference_keeps_observations.

(** The same for the steps of inference in any order and number. *)
Theorem C64_any_schedule {V} : forall (schema : gmap string (t_rel V)) r h0 r0 cs h steps h',
  schema_lawful schema -> hirm_new schema r = Ok (h0, r0) -> hirm_run h0 cs h ->
  Forall (infer_step_ok (h_schema h)) steps -> foldM infer_do h steps = Ok h' ->
  h_schema h' = h_schema h /\ h_code h' = h_code h /\ keeps_all (h_schema h) (hirm_data h) (hirm_data h').
Proof.
  intros schema r h0 r0 cs h steps h' HL H0 Hrun Hok H.
  destruct (proj1 (hirm_new_spec schema r HL) _ _ H0) as [([a0 Hh0] & _) _].
  destruct (hirm_run_spec h0 cs h Hrun a0 Hh0) as ([a Hh] & _).
  pose proof (holds_code_inj h a Hh) as Hinj.
  assert (hirm_keeps (latent_in (h_schema h)) h h') as K; [|split_and!; [apply K|apply K|by eapply keeps_to_all]].
  eapply (foldM_inv _ (hirm_keeps (latent_in (h_schema h)) h)); [apply hirm_keeps_refl| |exact H].
  intros ha s hb Hs K Hdo. eapply hirm_keeps_trans; [exact K|]. rewrite Forall_forall in Hok. apply Hok in Hs.
  pose proof (hirm_keeps_inj _ _ _ K Hinj) as Hinja. destruct s as [o name rs|o names rs|lg o t rs]; simpl in *.
  - apply obind_Ok in Hdo as ([hc rc] & Hdo & [= <-]). eapply hirm_latents_keeps; [apply Hs|exact Hdo].
  - apply obind_Ok in Hdo as ([hc rc] & Hdo & [= <-]). unfold hirm_transition in Hdo.
    apply (foldM_inv _ (fun st => hirm_keeps (latent_in (h_schema h)) ha st.1)) in Hdo; [done|apply hirm_keeps_refl|].
    intros [h2 r2] name [h3 r3] _ IH Hs3. simpl in *. eapply hirm_keeps_trans; [exact IH|]. eapply move_relation_keeps; [done| |exact Hs3].
    by eapply hirm_keeps_inj.
  - apply obind_Ok in Hdo as ([hc rc] & Hdo & [= <-]). by eapply irm_step_keeps.
Qed.
Print Assumptions C64_any_schedule.

(** For an IRM. *)
Definition irm_observations {V} (ir : irm V) : gmap string (gmap items_t V) := any_data <$> i_rels ir.
Theorem C64_irm {V} : forall (ir : irm V) lg o late n r ir' r',
  inference_irm lg o late 0 n ir r = Ok (ir', r') ->
  i_schema ir' = i_schema ir /\
  forall name m, irm_observations ir !! name = Some m ->
    exists m', irm_observations ir' !! name = Some m' /\ keeps_observations (latent_in (i_schema ir) name) m m'.
Proof.
  intros ir lg o late n r ir' r' H. apply inference_irm_keeps in H as (Hs & _ & _ & Hk). split; [done|].
  intros name m. unfold irm_observations. rewrite !lookup_fmap. destruct (i_rels ir !! name) as [x|] eqn:Ex; [|done]. intros [= <-].
  destruct (Hk name x Ex) as (x' & -> & _ & Hkx). simpl. eauto.
Qed.
Print Assumptions C64_irm.

(** While no latent relation has an observation, inference always returns, whatever the
    draws, the orders, the number of iterations and the time-out; and what it does is a
    history of public calls, so that every property of reachable HIRMs holds of the result,
    and all observations are as they were. *)
Theorem C64_returns {V} : forall (schema : gmap string (t_rel V)) r h0 r0 cs h lg o late n r1,
  schema_lawful schema -> hirm_new schema r = Ok (h0, r0) -> hirm_gentle_run h0 cs h -> (forall i, orders_ok (o i)) ->
  no_latent_observations h -> schema_resamples (h_schema h) ->
  exists h' r1' cs', inference_hirm lg o late 0 n h r1 = Ok (h', r1') /\ hirm_gentle_run h0 (cs ++ cs')%list h' /\
    hirm_run h0 (cs ++ cs')%list h' /\ h_schema h' = h_schema h /\ hirm_data h' = hirm_data h.
Proof.
  intros schema r h0 r0 cs h lg o late n r1 HL H0 Hrun Ho Hno Hr.
  destruct (inference_idle lg o late n Ho 0 h r1 (reached_ready schema r h0 r0 cs h HL H0 Hrun) Hno Hr) as (h' & r1' & cs' & H & Hg & Hs & Hd).
  pose proof (gentle_app _ _ _ _ _ Hrun Hg) as Hall.
  destruct (proj1 (hirm_new_spec schema r HL) _ _ H0) as [Hb0 _]. pose proof Hb0 as ([a0 Hh0] & _ & Hl0 & _).
  destruct (gentle_run_spec h0 _ h' Hall a0 Hh0 (built_closed schema h0 Hb0) Hl0) as (_ & _ & Hr').
  exists h', r1', cs'. done.
Qed.
Print Assumptions C64_returns.

(** The hyperparameter steps of the modelled distributions never fail. *)
Lemma bb_total lg b r : exists b' r', bb_transition lg b r = Ok (b', r').
Proof. destruct (C45_beta_bernoulli lg b r) as (g & h & r' & _ & _ & H & _). eauto. Qed.
Theorem C64_resamples : forall lg (k : nat) smp smpt near max_length min_char max_char pick strings,
  resamples (bb_dist lg) /\ resamples (dc_dist lg k) /\ resamples (nm_dist lg smp) /\ resamples (zm_dist lg smpt) /\
  resamples (bg_dist_with near lg max_length min_char max_char) /\ resamples (sc_dist lg pick strings) /\
  resamples (em_dist (gaussian_emis lg smpt)) /\ resamples (em_dist (sometimes_bitflip lg)).
Proof.
  intros lg k smp smpt near ml mn mx pick strings.
  assert (forall d r, exists d' r', dc_transition lg d r = Ok (d', r')) as Hdc.
  { intros d r. unfold dc_transition. destruct (grid_transition_total (fun a => dc_score lg (dc_set d a)) alpha_grid r) as (h & r' & E); [done|]. rewrite E. simpl. eauto. }
  assert (forall d r, exists d' r', zm_transition lg d r = Ok (d', r')) as Hzm.
  { intros d r. unfold zm_transition. destruct (grid_transition_total (fun a => zm_score lg (zm_set d a)) zm_grid r) as (h & r' & E); [done|]. rewrite E. simpl. eauto. }
  split_and!; intros s r; cbn.
  - apply bb_total.
  - apply Hdc.
  - unfold nm_transition. destruct (grid_transition_total (fun a => nm_score lg (nm_set s a)) nm_grid r) as (h & r' & E); [done|]. rewrite E. simpl. eauto.
  - apply Hzm.
  - unfold bg_transition. destruct (grid_transition_total (fun a => bg_score lg (bg_set_alpha s a)) alpha_grid r) as (h & r' & E); [done|]. rewrite E. simpl. eauto.
  - unfold sc_transition. destruct (Hdc (sc_dc s) r) as (d' & r' & ->). simpl. eauto.
  - unfold ga_transition. destruct (Hzm (ga_zmn s) r) as (d' & r' & ->). simpl. eauto.
  - unfold sm_transition. cbn. destruct (bb_total lg (sm_bb s) r) as (d' & r' & ->). simpl. eauto.
Qed.
Print Assumptions C64_resamples.

(** The hypotheses of [C64_returns] (and with its conclusion those of
    [C64_inference_keeps_observations]) are met by a HIRM with two relations and
    observations. *)
Example C64_example : exists h0 r0 h h' r', schema_lawful C15_schema /\ hirm_new C15_schema [0; 1] = Ok (h0, r0) /\
  hirm_gentle_run h0 C16_calls h /\ hirm_run h0 C16_calls h /\ no_latent_observations h /\ schema_resamples (h_schema h) /\
  inference_hirm ln (fun _ => some_orders) (fun i => bool_decide (i = 3)) 0 5 h [1; 0; 1] = Ok (h', r') /\
  hirm_data h' = {[ "r" := {[ [1; 7]%Z := true ]}; "a" := {[ [1; 7]%Z := true ]} ]}.
Proof.
  destruct C16_example as (h0 & r0 & h & _ & _ & HL & H0 & Hg & Hrun & Hd & _ & _).
  assert (h_schema h = C15_schema) as Hs.
  { rewrite (proj1 (C15_structure C15_schema [0; 1] h0 r0 C16_calls h HL H0 Hrun)). reflexivity. }
  assert (no_latent_observations h) as Hno.
  { intros name m (t & Ht & Hf). rewrite Hs in Ht. unfold C15_schema in Ht. exfalso. revert Hf.
    apply lookup_insert_Some in Ht as [[<- <-]|[_ [<- <-]%lookup_singleton_Some]]; discriminate. }
  assert (schema_resamples (h_schema h)) as Hr.
  { intros name t Ht. rewrite Hs in Ht. unfold C15_schema in Ht.
    apply lookup_insert_Some in Ht as [[<- <-]|[_ [<- <-]%lookup_singleton_Some]]; intros s r; cbn; eauto. }
  destruct (C64_returns C15_schema [0; 1] h0 r0 C16_calls h ln (fun _ => some_orders) (fun i => bool_decide (i = 3)) 5 [1; 0; 1] HL H0 Hg
    (fun _ => some_orders_ok) Hno Hr) as (h' & r' & cs' & H & _ & _ & _ & Hd').
  exists h0, r0, h, h', r'. rewrite Hd' , Hd. split_and!; try assumption. reflexivity.
Qed.

(** And a latent value does change: the values of a latent relation are not kept, its
    tuples and all values of the noisy relation are. *)
Definition C64_schema : gmap string (t_rel bool) :=
  {[ "r" := TClean ["d"; "c"] false tally_dist tt; "a" := TNoisy ["d"; "c"] true (copy_emission bool) tt "r" ]}.
Definition C64_calls : list (hirm_call bool) :=
  [HIncorporate "r" [1; 7]%Z true [0]; HIncorporate "a" [1; 7]%Z false []].
Lemma C64_schema_lawful : schema_lawful C64_schema.
Proof.
  intros name t. unfold C64_schema. intros [[<- <-]|[Hne Ht]]%lookup_insert_Some.
  - split; [by exists tally_lawful|done].
  - apply lookup_singleton_Some in Ht as [<- <-]. split; [by exists (count_lawful _)|]. intros b tb [= <-].
    rewrite lookup_insert. intros [= <-]. simpl. lia.
Qed.
Definition C64_before : gmap string (gmap items_t bool) := {[ "r" := {[ [1; 7]%Z := true ]}; "a" := {[ [1; 7]%Z := false ]} ]}.
Definition C64_after : gmap string (gmap items_t bool) := {[ "r" := {[ [1; 7]%Z := false ]}; "a" := {[ [1; 7]%Z := false ]} ]}.
Definition C64_steps : list infer_step := [ILatent some_orders "r" [1; 1; 1]].
Example C64_latent_example : exists h0 r0 h h', schema_lawful C64_schema /\ hirm_new C64_schema [0; 1] = Ok (h0, r0) /\
  hirm_run h0 C64_calls h /\ Forall (infer_step_ok (h_schema h)) C64_steps /\ foldM infer_do h C64_steps = Ok h' /\
  hirm_data h = C64_before /\ hirm_data h' = C64_after.
Proof.
  assert ((let* h := (let* (h0, _) := hirm_new C64_schema [0; 1] in foldM hirm_do h0 C64_calls) in
    let* h' := foldM infer_do h C64_steps in
    Ok (bool_decide (hirm_data h = C64_before), bool_decide (hirm_data h' = C64_after))) = Ok (true, true)) as H by by_compute.
  apply obind_Ok in H as (h & H & H2). apply obind_Ok in H2 as (h' & H2 & [= Hd1%bool_decide_eq_true Hd2%bool_decide_eq_true]).
  destruct (start_and_run C64_schema [0; 1] C64_calls h C64_schema_lawful) as (h0 & r0 & H0 & _ & Hrun); [done|exact H|].
  exists h0, r0, h, h'. split_and!; try assumption; [apply C64_schema_lawful|].
  assert (h_schema h = C64_schema) as ->.
  { rewrite (proj1 (C15_structure C64_schema [0; 1] h0 r0 C64_calls h C64_schema_lawful H0 Hrun)). reflexivity. }
  repeat constructor; try apply some_orders_ok. by eexists.
Qed.
