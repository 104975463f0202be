(** C77: the file of samples the program writes. *)
From Coq Require Import String Ascii.
From stdpp Require Import gmap sorting strings list relations.
From Coq Require Import ZArith Reals Lia.
From Verif Require Import M_base M_dist M_crp M_domain M_relation M_noisy M_irm M_hirm M_inference M_text M_io M_clusters M_restore M_heldout M_main M_samples
  S_crp S_crp_state S_relation S_irm S_hirm S_schema S_clusters S_io S_inference S_heldout S_load S_restore S_main S_sample S_samples P_base P_tally P_schema P_hirm P_load_models P_infer_ok P_sample P_sample_hirm P_io T_io T_irm T_hirm T_load T_restore T_sample T_main.
Local Open Scope string_scope.
Local Open Scope list_scope.
Local Open Scope nat_scope.

(** ** Writing *)
Lemma write_entities_named rev : forall es ds, length es = length ds -> Forall (fun d => is_Some (rev !! d)) ds ->
  write_entities rev ds es = Ok (concat (map (cons comma) (map txt (called_all rev ds es)))).
Proof.
  induction es as [|e es IH]; intros [|d ds] Hl HF; try done. inversion HF as [|? ? [m Hm] HF']; subst. cbn [write_entities head tail idx_ obind].
  assert (write_entity rev d e = Ok (txt (called rev d e))) as ->.
  { unfold write_entity, called. rewrite Hm. cbn [at_ obind mbind option_bind]. destruct (m !! e); [done|]. by rewrite txt_str. }
  cbn [obind]. rewrite (IH ds) by (done || (simpl in Hl; lia)). reflexivity.
Qed.
Definition named_obs rev ds (x : items_t * string) : observation := (called_all rev ds x.1, x.2).
Lemma write_list_named rev rel ds l : Forall (fun d => is_Some (rev !! d)) ds -> Forall (fun x : items_t * string => length x.1 = length ds) l -> forall out,
  foldM (write_one rev rel ds) out l = Ok (out ++ lines_of (map (obs_text rel) (map (named_obs rev ds) l))).
Proof.
  intros HF Hl. induction Hl as [|x l Hx _ IH]; intros out; cbn [foldM]; [by rewrite app_nil_r|].
  unfold write_one at 1. rewrite (write_entities_named rev x.1 ds Hx HF). cbn [obind]. rewrite IH. f_equal.
  unfold lines_of. cbn [map concat]. unfold named_obs at 2, obs_text, separated_by. cbn [map concat fst snd]. by rewrite <- !app_assoc.
Qed.
Definition fits_file (rev : gmap string (gmap Z string)) (domains_of : string -> option (list string)) (eobs : encoded) : Prop :=
  forall rel l, eobs !! rel = Some l -> exists ds, domains_of rel = Some ds /\ Forall (fun d => is_Some (rev !! d)) ds /\ Forall (fun x : items_t * string => length x.1 = length ds) l.
Definition named_all rev (domains_of : string -> option (list string)) (eobs : encoded) : observations :=
  map_imap (fun rel l => Some (map (named_obs rev (default [] (domains_of rel))) l)) eobs.
Lemma write_relations_named rev domains_of eobs rels : fits_file rev domains_of eobs -> (forall rel, rel ∈ rels -> is_Some (eobs !! rel)) -> forall out,
  foldM (write_relation rev domains_of eobs) out rels =
    Ok (out ++ lines_of (concat (map (fun rel => map (obs_text rel) (default [] (named_all rev domains_of eobs !! rel))) rels))).
Proof.
  intros HF. induction rels as [|a rels IH]; intros Hs out; cbn [foldM]; [by rewrite app_nil_r|].
  destruct (Hs a (elem_of_list_here _ _)) as [l Hl]. destruct (HF a l Hl) as (ds & Hds & H1 & H2).
  unfold write_relation at 1. rewrite Hds. cbn [at_ obind]. rewrite Hl. cbn [default]. rewrite (write_list_named _ _ _ _ H1 H2). cbn [obind].
  rewrite IH by (intros; apply Hs; by right). f_equal. cbn [map concat]. unfold named_all at 2. rewrite map_lookup_imap, Hl. cbn [mbind option_bind]. rewrite Hds. cbn.
  unfold lines_of. rewrite map_app, concat_app. by rewrite <- app_assoc.
Qed.
Lemma write_named o rev domains_of eobs schema : orders_ok o -> fits_file rev domains_of eobs ->
  (forall rel l x, named_all rev domains_of eobs !! rel = Some l -> x ∈ l -> rel ∈ schema /\ writable_obs rel x) ->
  exists file, write_observations o rev domains_of eobs = Ok file /\
  exists obs', load_observations schema file = Ok obs' /\ same_observations obs' (named_all rev domains_of eobs) /\ forall rel, obs' !! rel <> Some [].
Proof.
  intros Ho HF Hw. unfold write_observations. set (rels := o_names o (dom eobs)). set (obs := named_all rev domains_of eobs) in *.
  assert (forall rel, rel ∈ rels <-> is_Some (eobs !! rel)) as Hrels.
  { intros rel. unfold rels. rewrite in_o_names by done. apply elem_of_dom. }
  rewrite (write_relations_named rev domains_of eobs rels HF) by (intros; by apply Hrels). simpl ([] ++ _). fold obs.
  eexists. split; [done|]. rewrite recs_text. set (ys := recs_of obs rels).
  assert (forall y, y ∈ ys -> y.1 ∈ schema /\ writable_obs y.1 y.2) as Hys.
  { intros [rel x] [Hrel Hx]%in_recs. cbn [fst snd]. destruct (obs !! rel) as [l|] eqn:Hl; [by eapply Hw|by apply elem_of_nil in Hx]. }
  exists (foldl (fun m y => push m y.1 y.2) ∅ ys). split_and!.
  - unfold load_observations. rewrite getlines_lines_of.
    2:{ apply Forall_map, Forall_forall. intros y Hy. apply obs_text_no_newline. by apply Hys. }
    apply load_lines_iff. exists ys. split; [|done]. apply Forall2_fmap_l, Forall_Forall2_diag, Forall_forall.
    intros y Hy. simpl. destruct (Hys y Hy). destruct y. by apply reads_written.
  - intros rel. rewrite foldl_push_lookup, lookup_empty. cbn [default]. unfold ys. rewrite recs_observed by by apply o_names_nodup.
    destruct (decide (rel ∈ rels)) as [Hin|Hn]; [by destruct (obs !! rel) as [[|x l]|]|].
    unfold obs, named_all. rewrite map_lookup_imap. destruct (eobs !! rel) eqn:E; [|done]. exfalso. apply Hn, Hrels. by rewrite E.
  - intros rel. rewrite foldl_push_lookup, lookup_empty. by destruct (observed_of ys rel).
Qed.

(** ** What sampled tuples look like in the file *)
Lemma print_comma z : comma ∉ print_int z.
Proof.
  assert (forall n, comma ∉ dec (N.size_nat n) n []) as Hd.
  { intros n H. apply dec_digits in H as [H|[H _]]; [by apply elem_of_nil in H|]. vm_compute in H. by apply H. }
  unfold print_int. destruct (z <? 0)%Z; [|apply Hd]. intros [H|H]%elem_of_cons; [discriminate H|by apply Hd in H].
Qed.
Lemma called_plain names d e : S_io.plain d -> (forall m e x, names !! d = Some m -> m !! e = Some x -> S_io.plain x /\ x <> "") -> S_io.plain (called names d e) /\ called names d e <> "".
Proof.
  intros [Hd1 Hd2] Hn. unfold called. destruct (names !! d) as [m|] eqn:Em; cbn [mbind option_bind]; [destruct (m !! e) as [x|] eqn:Ex; [by eapply Hn|]|].
  all: split; [|intros H; apply (f_equal txt) in H; rewrite txt_str in H; discriminate H].
  all: unfold S_io.plain; rewrite txt_str; split; rewrite !not_elem_of_app; split_and!; try done; try apply print_comma; try apply P_clusters.print_line.
  all: intros H; repeat (apply elem_of_cons in H as [H|H]; [discriminate H|]); by apply elem_of_nil in H.
Qed.
Lemma called_all_plain names ds es : length es = length ds -> Forall S_io.plain ds -> (forall d m e x, names !! d = Some m -> m !! e = Some x -> S_io.plain x /\ x <> "") ->
  Forall (fun x => S_io.plain x /\ x <> "") (called_all names ds es).
Proof.
  intros Hl HF Hn. revert es Hl. induction HF as [|d ds Hd _ IH]; intros [|e es] Hl; try done; [constructor|]. unfold called_all. cbn [zip_with].
  apply Forall_cons. split; [apply called_plain; [done|intros; by eapply Hn]|]. apply IH. simpl in Hl; lia.
Qed.
Lemma named_writable {V} (show : V -> string) schema names rel t (x : items_t * string) : fileable show schema names -> schema !! rel = Some t -> length x.1 = length (t_domains t) -> S_io.plain x.2 ->
  writable_obs rel (named_obs names (t_domains t) x).
Proof.
  intros [F1 F2 F3] Ht Hl Hv. destruct (F1 rel t Ht) as (Hp & Hne & Hds). pose proof (called_all_plain names (t_domains t) x.1 Hl Hds F3) as HF.
  unfold writable_obs, named_obs. cbn [fst snd]. split_and!; [done|done|eapply Forall_impl; [exact HF|by intros ? []]|].
  destruct (last (called_all names (t_domains t) x.1)) as [y|] eqn:E.
  - exists y. split; [done|]. apply last_Some in E as [l' E]. rewrite E in HF. apply Forall_app in HF as [_ HF]. by inversion HF as [|? ? []].
  - apply last_None in E. exfalso. assert (length (called_all names (t_domains t) x.1) = length (t_domains t)) as H by (unfold called_all; rewrite zip_with_length; lia).
    rewrite E in H. destruct (t_domains t); done.
Qed.

(** ** Runs of the program *)
Lemma main_ready {V} (parse : string -> string -> outcome V) (walks : orders -> Prop) (schema : gmap string (t_rel V)) obs held held0 load lg o oi late iters r file lp h :
  schema_lawful schema -> schema_draws_keep schema -> schema_resamples schema -> all_observed schema ->
  (forall o, walks o -> orders_ok o) -> orders_ok o -> (forall i, orders_ok (oi i)) ->
  match load with None => True | Some file0 => exists h0 names0, ran parse walks schema obs held0 h0 names0 file0 end ->
  hirm_main parse lg o oi late iters schema obs held load r = Ok (file, lp, h) -> ready h /\ h_schema h = schema.
Proof.
  intros HL HD Hre HO HW Ho Hoi Hload H. unfold hirm_main in H. apply obind_Ok in H as (enc & HE & H). apply obind_Ok in H as ([h1 r1] & H1 & H). apply obind_Ok in H as ([h2 r2] & H2 & H).
  apply obind_Ok in H as ([[f l] r3] & _ & H). injection H as _ _ ->.
  assert (ready h1 /\ h_schema h1 = schema) as [HR Hs].
  { destruct load as [file0|]; [|exact (fresh_ready parse o schema obs enc r h1 r1 HL HD Ho H1)]. destruct Hload as (h0 & names0 & Hran).
    exact (resumed_ready parse walks schema obs held0 h0 names0 file0 o enc r h1 r1 HL HD HW Ho Hran H1). }
  destruct (inference_idle lg oi late iters Hoi 0 h1 r1 HR) as (h' & r' & cs & E & Hg & Hs' & _); [|by rewrite Hs|].
  { intros name m (t & Ht & Hf) _. rewrite Hs in Ht. rewrite (HO name t Ht) in Hf. done. }
  rewrite E in H2. injection H2 as -> _. split; [by eapply ready_run|congruence].
Qed.

(** After any run of the program, the first or one that resumes, in which drawing the samples
    ends: the file of samples is written, and is a file of observations.  Read as such, it
    has exactly [n] observations of every relation that no other one is built on and none of
    others.  They are for different tuples that had no value, each has the value that the
    model now has, and each entity is called by its name if it has one. *)
Theorem C77_samples {V} (parse : string -> string -> outcome V) (show : V -> string) (walks : orders -> Prop) (schema : gmap string (t_rel V)) obs held held0 load
    lg o oi late iters r file lp h enc os fuel n rs sampled h' rs' :
  schema_lawful schema -> schema_draws_keep schema -> schema_resamples schema -> all_observed schema ->
  (forall o, walks o -> orders_ok o) -> orders_ok o -> (forall i, orders_ok (oi i)) -> orders_ok os ->
  match load with None => True | Some file0 => exists h0 names0, ran parse walks schema obs held0 h0 names0 file0 end ->
  main_encoding o schema obs held = Ok enc -> fileable show schema (enc_r enc) ->
  hirm_main parse lg o oi late iters schema obs held load r = Ok (file, lp, h) ->
  hirm_sample os fuel h n rs = Ok (sampled, h', rs') -> n <> 0 ->
  exists samples, main_samples show os fuel enc h n rs = Ok (Some samples, h') /\
  exists sobs, load_observations (dom schema) samples = Ok sobs /\
  (forall rel, is_Some (sobs !! rel) <-> leaf schema rel) /\
  forall rel t l, schema !! rel = Some t -> sobs !! rel = Some l ->
    exists tuples : list (items_t * V), length tuples = n /\ NoDup tuples.*1 /\
      Forall2 (fun (w : observation) (x : items_t * V) => w = (called_all (enc_r enc) (t_domains t) x.1, show x.2)) l tuples /\
      forall items v, (items, v) ∈ tuples -> length items = length (t_domains t) /\ datum h rel items = None /\ datum h' rel items = Some v.
Proof.
  intros HL HD Hre HO HW Ho Hoi Hos Hload HE HF H Hsm Hn.
  destruct (main_ready parse walks schema obs held held0 load lg o oi late iters r file lp h HL HD Hre HO HW Ho Hoi Hload H) as [[[a Hh] Hc Hl Hb] Hs].
  assert (no_empty h) as He by (intros b Eb; by apply (Hb b [])).
  destruct (sample_good h a os fuel n rs sampled h' rs' Hh Hc Hl He ltac:(by rewrite Hs) Hos Hsm) as (S1 & S2 & _ & _ & xs & Hinc).
  destruct (incorporates_holds h a _ h' Hh Hinc) as (_ & (Hs' & _) & _). rewrite Hs in S1, S2, Hs'.
  set (dm := fun rel => t_domains <$> schema !! rel). set (rev := enc_r enc) in *.
  assert (forall rel l, sampled !! rel = Some l -> exists t, schema !! rel = Some t /\ forall x, x ∈ l -> length x.1 = length (t_domains t)) as Hlen.
  { intros rel l Hlk. destruct (proj1 (S1 rel) ltac:(by exists l)) as [[[t Ht] _] _]. exists t. split; [done|]. intros [items v] Hx.
    destruct (S2 rel l Hlk) as (_ & _ & HH). destruct (HH items v Hx) as (_ & _ & t' & Ht' & HF2). rewrite Ht in Ht'. injection Ht' as <-. symmetry. by eapply Forall2_length. }
  assert (fits_file rev dm (shown show sampled)) as Hfit.
  { intros rel l Hlk. unfold shown in Hlk. rewrite lookup_fmap in Hlk. destruct (sampled !! rel) as [l0|] eqn:E0; [|done]. injection Hlk as <-.
    destruct (Hlen rel l0 E0) as (t & Ht & Hx). exists (t_domains t). unfold dm. rewrite Ht. split; [done|]. split.
    - apply Forall_forall. intros d Hd. unfold main_encoding in HE. destruct (C28_encoding o _ _ enc Ho HE d) as [HD1 _].
      destruct HD1 as (f & rv & _ & Hrv & _); [|by exists rv]. exists rel, (t_domains t). split; [by rewrite lookup_fmap, Ht|done].
    - apply Forall_map, Forall_forall. intros x Hin. exact (Hx x Hin). }
  destruct (write_named os rev dm (shown show sampled) (dom schema) Hos Hfit) as (samples & Hf & sobs & Hload' & Hsame & Hne).
  { intros rel l x Hlk Hx. unfold named_all in Hlk. rewrite map_lookup_imap in Hlk. unfold shown in Hlk. rewrite lookup_fmap in Hlk. destruct (sampled !! rel) as [l0|] eqn:E0; [|done].
    cbn in Hlk. injection Hlk as <-. destruct (Hlen rel l0 E0) as (t & Ht & Hln). unfold dm in Hx. rewrite Ht in Hx. cbn in Hx. split; [apply elem_of_dom; by exists t|].
    apply elem_of_list_fmap in Hx as (y & -> & Hy). apply elem_of_list_fmap in Hy as (z & -> & Hz). eapply named_writable; [done|done|exact (Hln z Hz)|]. apply (fb_values _ _ _ HF). }
  exists samples. split.
  { unfold main_samples. rewrite bool_decide_eq_false_2 by done. rewrite Hsm. cbn [obind]. rewrite Hs'. fold dm rev. rewrite Hf. done. }
  exists sobs. split; [done|].
  assert (forall rel, match sampled !! rel with Some l => exists t, schema !! rel = Some t /\ sobs !! rel = Some (map (fun x : items_t * V => (called_all rev (t_domains t) x.1, show x.2)) l) | None => sobs !! rel = None end) as Hall.
  { intros rel. specialize (Hsame rel). specialize (Hne rel). unfold named_all in Hsame. rewrite map_lookup_imap in Hsame. unfold shown in Hsame. rewrite lookup_fmap in Hsame.
    destruct (sampled !! rel) as [l|] eqn:E.
    - destruct (Hlen rel l E) as (t & Ht & _). exists t. split; [done|]. destruct (S2 rel l E) as (Hnl & _). cbn in Hsame. unfold dm in Hsame. rewrite Ht in Hsame. cbn in Hsame.
      rewrite map_map in Hsame. unfold named_obs in Hsame. cbn in Hsame. destruct (sobs !! rel) as [k|]; cbn in Hsame; [by rewrite Hsame|]. destruct l; [simpl in Hnl; lia|done].
    - cbn in Hsame. destruct (sobs !! rel) as [[|]|]; done. }
  split.
  - intros rel. specialize (Hall rel). destruct (sampled !! rel) as [l|] eqn:E.
    + destruct Hall as (t & _ & ->). split; [|by eexists]. intros _. by apply S1.
    + rewrite Hall. split; [by intros []|]. intros Hleaf. destruct (proj2 (S1 rel) (conj Hleaf Hn)) as [? ?]. congruence.
  - intros rel t l Ht Hlk. specialize (Hall rel). destruct (sampled !! rel) as [k|] eqn:E; [|congruence]. destruct Hall as (t' & Ht' & Hk). rewrite Ht in Ht'. injection Ht' as <-.
    rewrite Hlk in Hk. injection Hk as ->. destruct (S2 rel k E) as (Hnk & Hnd & HH). exists k. split_and!; [done|done| |].
    + clear. induction k as [|x k IH]; constructor; done.
    + intros items v Hin. destruct (HH items v Hin) as (H1 & H2 & _). destruct (Hlen rel k E) as (t' & Ht' & Hx). rewrite Ht in Ht'. injection Ht' as <-. by split; [apply (Hx (items, v))|].
Qed.
Print Assumptions C77_samples.

(** Different entities are called differently, unless an entity has been given a name of the
    form the program makes up ([C49_new_names_fresh_refuted]). *)
Theorem C77_distinct {V} o (schema : gmap string (t_rel V)) obs held enc d e e' : orders_ok o ->
  main_encoding o schema obs held = Ok enc ->
  (forall m i x k, enc_r enc !! d = Some m -> m !! i = Some x -> txt x <> txt "new_" ++ txt d ++ txt "_" ++ print_int k) ->
  called (enc_r enc) d e = called (enc_r enc) d e' -> e = e'.
Proof.
  intros Ho HE Hnew H. pose proof (encoding_decodes _ _ _ _ Ho HE) as Hd. unfold called in H.
  destruct (enc_r enc !! d) as [m|] eqn:Em; cbn [mbind option_bind] in H.
  2:{ apply str_inj, app_inv_head, app_inv_head, app_inv_head in H. by apply print_int_inj. }
  destruct (m !! e) as [x|] eqn:E1, (m !! e') as [x'|] eqn:E2.
  - subst x'. destruct (proj2 (Hd d e x)) as (f & Hf & Hfx); [by exists m|]. destruct (proj2 (Hd d e' x)) as (f' & Hf' & Hfx'); [by exists m|]. congruence.
  - exfalso. apply (f_equal txt) in H. rewrite txt_str in H. by apply (Hnew m e x e').
  - exfalso. apply (f_equal txt) in H. rewrite txt_str in H. by apply (Hnew m e' x' e).
  - apply str_inj, app_inv_head, app_inv_head, app_inv_head in H. by apply print_int_inj.
Qed.
Print Assumptions C77_distinct.

(** ** Cases *)
Definition C77_show (b : bool) : string := if b then "1" else "0".
Definition C77_file : string := "1,p,new_d_2
1,q,ann
".
Lemma plain_dec (x : string) : bool_decide (comma ∉ txt x) && bool_decide (newline ∉ txt x) = true -> S_io.plain x.
Proof. intros [H1%bool_decide_eq_true H2%bool_decide_eq_true]%andb_prop. by split. Qed.
(** A run that draws one sample of each relation meets the hypotheses; one of them is about
    an entity the model has made up. *)
Example C77_met : exists enc file h sampled h' rs',
  schema_lawful C76_schema /\ schema_draws_keep C76_schema /\ schema_resamples C76_schema /\ all_observed C76_schema /\ orders_ok some_orders /\
  main_encoding some_orders C76_schema C76_obs None = Ok enc /\ fileable C77_show C76_schema (enc_r enc) /\
  hirm_main C29_parse ln some_orders (fun _ => some_orders) (fun _ => true) 7 C76_schema C76_obs None None [0; 0; 0; 1] = Ok (file, None, h) /\
  hirm_sample some_orders 9 h 1 [2; 1; 0; 1; 0; 1; 0; 1] = Ok (sampled, h', rs') /\
  main_samples C77_show some_orders 9 enc h 1 [2; 1; 0; 1; 0; 1; 0; 1] = Ok (Some (txt C77_file), h').
Proof.
  destruct C76_runs_met as (enc & file & lp & h & file2 & lp2 & h2 & HL & HD & HR & HO & Ho & HE & _).
  assert ((match main_encoding some_orders C76_schema C76_obs None with
    | Ok enc => match hirm_main C29_parse ln some_orders (fun _ => some_orders) (fun _ => true) 7 C76_schema C76_obs None None [0; 0; 0; 1] with
      | Ok (_, None, h) => match hirm_sample some_orders 9 h 1 [2; 1; 0; 1; 0; 1; 0; 1] with
        | Ok _ => match main_samples C77_show some_orders 9 enc h 1 [2; 1; 0; 1; 0; 1; 0; 1] with Ok (Some f, _) => Some (bool_decide (enc_r enc = {[ "d" := {[ 0%Z := "ann"; 1%Z := "bob" ]} ]}), f) | _ => None end
        | _ => None end | _ => None end | _ => None end) = Some (true, txt C77_file)) as H by (vm_compute; reflexivity).
  rewrite HE in H. destruct (hirm_main _ _ _ _ _ _ _ _ _ _ _) as [[[f [x|]] h1]| | | | |] eqn:E1; [discriminate H| |discriminate H..].
  destruct (hirm_sample _ _ _ _ _) as [[[sampled h'] rs']| | | | |] eqn:E2; [|discriminate H..].
  destruct (main_samples _ _ _ _ _ _ _) as [[[sf|] h'']| | | | |] eqn:E3; [|discriminate H..]. injection H as Hr Hf. apply bool_decide_eq_true in Hr.
  assert (h'' = h') as ->.
  { unfold main_samples in E3. rewrite bool_decide_eq_false_2 in E3 by done. rewrite E2 in E3. cbn [obind] in E3. apply obind_Ok in E3 as (? & _ & E3). by injection E3 as _ <-. }
  exists enc, f, h1, sampled, h', rs'. split_and!; [exact HL|exact HD|exact HR|exact HO|exact Ho|exact HE| |reflexivity|exact E2|rewrite E3, Hf; reflexivity].
  rewrite Hr. split.
  - intros rel t. unfold C76_schema. intros [[<- <-]|[_ [<- <-]%lookup_singleton_Some]]%lookup_insert_Some; (split; [by apply plain_dec|split; [done|]]); apply Forall_singleton; by apply plain_dec.
  - intros []; by apply plain_dec.
  - intros d m e x [<- <-]%lookup_singleton_Some [[<- <-]|[_ [<- <-]%lookup_singleton_Some]]%lookup_insert_Some; (split; [by apply plain_dec|done]).
Qed.

(** With held-out observations an entity the model has just made up can go by the name of a
    held-out one: the model knows no eve, yet its samples are about eve. *)
Definition C77_held : observations := {[ "q" := [(["eve"], "1")] ]}.
Theorem C77_made_up_names_refuted : exists enc m r h r' rs file h' sobs,
  main_encoding some_orders C76_schema C76_obs (Some C77_held) = Ok enc /\
  main_start C29_parse some_orders C76_schema C76_obs enc None r = Ok (h, r') /\
  main_samples C77_show some_orders 9 enc h 1 rs = Ok (Some file, h') /\
  enc_r enc !! "d" = Some m /\ m !! 2%Z = Some "eve" /\ ~ known h "d" 2 /\
  load_observations (dom C76_schema) file = Ok sobs /\ sobs !! "q" = Some [(["eve"], "1")].
Proof.
  assert ((match main_encoding some_orders C76_schema C76_obs (Some C77_held) with
    | Ok enc => match main_start C29_parse some_orders C76_schema C76_obs enc None [0; 1] with
      | Ok (h, _) => match main_samples C77_show some_orders 9 enc h 1 [2; 1; 2; 1; 2; 1; 2; 1] with
        | Ok (Some f, _) => match load_observations (dom C76_schema) f with
          | Ok sobs => (bool_decide (enc_r enc !! "d" = Some {[ 0%Z := "ann"; 1%Z := "bob"; 2%Z := "eve" ]}), sobs !! "q", forallb (fun p : Z * irm bool => negb (bool_decide (irm_has p.2 "d" 2))) (map_to_list (h_irms h)))
          | _ => (false, None, false) end | _ => (false, None, false) end | _ => (false, None, false) end | _ => (false, None, false) end)
    = (true, Some [(["eve"], "1")], true)) as H by (vm_compute; reflexivity).
  destruct (main_encoding _ _ _ _) as [enc| | | | |] eqn:E1; [|discriminate H..]. destruct (main_start _ _ _ _ _ _ _) as [[h r']| | | | |] eqn:E2; [|discriminate H..].
  destruct (main_samples _ _ _ _ _ _ _) as [[[f|] h']| | | | |] eqn:E3; [|discriminate H..]. destruct (load_observations _ f) as [sobs| | | | |] eqn:E4; [|discriminate H..].
  injection H as Hm Hq Hk. apply bool_decide_eq_true in Hm. exists enc, {[ 0%Z := "ann"; 1%Z := "bob"; 2%Z := "eve" ]}, [0; 1], h, r', [2; 1; 2; 1; 2; 1; 2; 1], f, h', sobs.
  split_and!; [reflexivity|exact E2|exact E3|exact Hm|reflexivity| |exact E4|exact Hq].
  intros (t & ir & Hir & Hhas). apply elem_of_map_to_list, elem_of_list_In in Hir. apply (proj1 (forallb_forall _ _) Hk) in Hir. cbn in Hir.
  by rewrite bool_decide_eq_true_2 in Hir.
Qed.
Print Assumptions C77_made_up_names_refuted.
Example C77_distinct_met : exists enc, orders_ok some_orders /\ main_encoding some_orders C76_schema C76_obs None = Ok enc /\
  forall m i x k, enc_r enc !! "d" = Some m -> m !! i = Some x -> txt x <> txt "new_" ++ txt "d" ++ txt "_" ++ print_int k.
Proof.
  destruct C76_runs_met as (enc & _ & _ & _ & _ & _ & _ & _ & _ & _ & _ & Ho & HE & _).
  assert (match main_encoding some_orders C76_schema C76_obs None with Ok enc => bool_decide (enc_r enc = {[ "d" := {[ 0%Z := "ann"; 1%Z := "bob" ]} ]}) | _ => false end = true) as H by (vm_compute; reflexivity).
  rewrite HE in H. apply bool_decide_eq_true in H. exists enc. split_and!; [exact Ho|exact HE|]. rewrite H.
  intros m i x k [_ <-]%lookup_singleton_Some [[_ <-]|[_ [_ <-]%lookup_singleton_Some]]%lookup_insert_Some; discriminate.
Qed.
