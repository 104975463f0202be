(** C59: a saved model can be loaded again. *)
From Coq Require Import String Ascii.
From stdpp Require Import gmap sorting strings list.
From Coq Require Import ZArith Reals Lia.
From Verif Require Import M_base M_dist M_crp M_domain M_relation M_noisy M_irm M_hirm M_text M_io M_clusters M_restore
  S_crp S_crp_state S_relation S_irm S_hirm S_io S_load S_clusters P_base P_crp P_domain P_relation P_tally P_any P_irm P_irm_schema P_irm_history P_hirm P_hirm_move P_hirm_history P_hirm_trans P_hirm_ctor
  P_io P_load P_load_models P_clusters P_clusters_hirm P_restore P_restore_place P_restore_load T_irm T_hirm T_io T_load T_clusters S_restore.
Local Open Scope string_scope.
Local Open Scope nat_scope.

(** The file of any HIRM, loaded with the same schema and any observations, by a program that
    numbers the entities in its own way: if loading returns, every relation is in its cluster,
    every entity of the file in its cluster, under its name; further entities come from the
    observations only; and the observations are loaded as [S_load] says. *)
Theorem C59_effect {V} (parse : string -> string -> outcome V) (h : hirm V) a o o' rev E' obs file r h' r' : forall fwd,
  hirm_holds h a -> schema_draws_keep (h_schema h) -> orders_ok o -> orders_ok o' ->
  decodes fwd rev -> decodes (enc_f E') (enc_r E') -> hirm_printable rev h ->
  hirm_to_txt o rev h = Ok file ->
  hirm_from_txt parse o' (h_schema h) obs E' file r = Ok (h', r') ->
  restored rev (enc_r E') h h' /\ (exists a', hirm_holds h' a') /\
  exists eobs, encode_observations o' (enc_f E') (fun rel => t_domains <$> h_schema h !! rel) obs = Ok eobs /\
    forall n, loaded parse eobs (base_in (h_schema h)) (base_arity (h_schema h)) n ((fun _ => ∅) <$> h_schema h !! n) (hirm_data h' !! n).
Proof.
  intros fwd Hh HD Ho Ho' Hd Hd' Hp Hf H. destruct (hirm_clusters o rev h a Hh Ho Hp) as (file' & rels & irms & Hf' & Hl & Dr & Di & Hr & Hs).
  assert (file' = file) as -> by congruence. unfold hirm_from_txt in H. rewrite Hl in H. cbn [obind] in H. apply obind_Ok in H as ([hp r1] & Hpl & H).
  destruct (hirm_place_spec h a Hh o' Ho' fwd (enc_f E') rev (enc_r E') Hd Hd' Hp rels irms Dr Di Hr Hs r) as [Hspec _].
  destruct (Hspec hp r1 Hpl) as (Hb & Hsch & Htab & Hirm). pose proof Hb as ([ap Hap] & _ & Hlist & Hdat).
  unfold incorporate_observations in H. apply obind_Ok in H as (eobs & He & H).
  destruct (incorporate_encoded_spec hirm_ops parse _ _ _ (growing_laws hp ltac:(by rewrite Hsch)) o' eobs hp r1 h' r' (base_in (h_schema hp)) Ho') as (HI & Hld & _);
    [by eapply growing_refl| |done|].
  - intros n b. unfold listed, base_in. cbn [hirm_ops op_b2n]. rewrite (Hlist b n). split.
    + intros (t & -> & Ht). done.
    + destruct (h_schema hp !! n) as [t|]; [|done]. intros Ht. by exists t.
  - destruct HI as [([a' Ha'] & Hdir & Hcrp) HG]. pose proof Hdir as (Hs' & Hc' & _). split_and!.
    + split.
      * congruence.
      * intros n. rewrite <- Htab. unfold table_of. by rewrite Hc', Hcrp.
      * intros t. specialize (Hirm t). specialize (HG t). destruct (h_irms h !! t) as [ir0|], (h_irms hp !! t) as [ir1|], (h_irms h' !! t) as [ir2|]; try done.
        intros A A' HA HA'. destruct Hirm as (A1 & A0 & HA1 & Hren & HA0). rewrite (world_holds_fun _ _ _ HA HA1). exists A0. split; [done|]. by apply HG.
    + eauto.
    + exists eobs. rewrite <- Hsch. split; [exact He|]. intros n. specialize (Hld n). rewrite (hirm_data_lookup h' a' n Ha'). unfold hirm_dat in Hld.
      rewrite <- (hirm_data_lookup hp ap n Hap) in Hld. assert (hirm_data hp !! n = (fun _ => ∅) <$> h_schema hp !! n) as E; [|by rewrite E in Hld].
      destruct (h_schema hp !! n) as [ty|] eqn:Ety; cbn.
      * destruct (member hp ap n ty Hap Ety) as (? & ? & ? & ? & x & _ & _ & _ & _ & _ & _ & _ & _ & Hx).
        assert (hirm_data hp !! n = Some (any_data x)) as Hx' by by rewrite (hirm_data_lookup hp ap n Hap), Hx. rewrite Hx'. f_equal. by eapply Hdat.
      * unfold hirm_data. by rewrite map_lookup_imap, Ety.
Qed.
Print Assumptions C59_effect.

(** Up to the observations, loading a saved HIRM cannot fail if the names of its entities are
    among the observations and no noisy relation comes before its base in the order of names. *)
Theorem C59_total {V} (h : hirm V) a o o' fwd rev fwd' rev' file rels irms r :
  hirm_holds h a -> orders_ok o -> orders_ok o' -> decodes fwd rev -> decodes fwd' rev' -> hirm_printable rev h ->
  hirm_to_txt o rev h = Ok file -> load_clusters_hirm file = Ok (rels, irms) ->
  (forall t ir A d i c x, h_irms h !! t = Some ir -> world_holds (i_domains ir) A -> seat A d i = Some c -> named rev d i x -> exists i', named rev' d i' x) ->
  (forall n ty b, h_schema h !! n = Some ty -> t_base ty = Some b -> str_le b n) ->
  exists h' r', hirm_place o' (h_schema h) fwd' rels irms r = Ok (h', r') /\ h_schema h' = h_schema h /\ forall n, table_of h' n = table_of h n.
Proof.
  intros Hh Ho Ho' Hd Hd' Hp Hf Hl Hk Hb. destruct (hirm_clusters o rev h a Hh Ho Hp) as (file' & rels' & irms' & Hf' & Hl' & Dr & Di & Hr & Hs).
  assert (file' = file) as -> by congruence. rewrite Hl in Hl'. injection Hl' as <- <-.
  destruct (hirm_place_spec h a Hh o' Ho' fwd fwd' rev rev' Hd Hd' Hp rels irms Dr Di Hr Hs r) as [H1 H2].
  destruct (H2 Hk Hb) as ([h' r'] & E). exists h', r'. split; [done|]. by destruct (H1 _ _ E) as (_ & ? & ? & _).
Qed.
Print Assumptions C59_total.

(** ** Load, infer, save, load *)
Lemma encoding_decodes o schema obs E : orders_ok o -> calculate_encoding o schema obs = Ok E -> decodes (enc_f E) (enc_r E).
Proof.
  intros Ho HE d i x. pose proof (C28_encoding o schema obs E Ho HE d) as [H1 H2].
  assert (declared_domain schema d \/ ~ declared_domain schema d) as [Hd|Hd].
  { pose proof (proj2 (proj2 (calculate_encoding_spec o schema obs Ho)) E HE d) as H. destruct (enc_f E !! d); destruct H as [Hd _]; [by left|by right]. }
  - destruct (H1 Hd) as (f & rv & Hf & Hr & _ & N & _). split.
    + intros (m & Hm & Hx). assert (m = f) as -> by congruence. exists rv. split; [done|]. by apply N.
    + intros (m & Hm & Hx). assert (m = rv) as -> by congruence. exists f. split; [done|]. by apply N.
  - destruct (H2 Hd) as [Hf Hr]. split; intros (m & Hm & _); congruence.
Qed.
Lemma inference_run {V} (h : hirm V) cs h' a : hirm_run h cs h' -> Forall inference cs -> hirm_holds h a ->
  (exists a', hirm_holds h' a') /\ h_schema h' = h_schema h /\ hirm_data h' = hirm_data h.
Proof.
  intros Hrun Hc Hh. destruct (hirm_run_spec h cs h' Hrun a Hh) as (H1 & -> & ->). split; [done|].
  assert (forall (s : gmap string (t_rel V)), foldl hirm_schema_after s cs = s) as ->. { clear -Hc. induction Hc as [|c cs H _ IH]; intros s; [done|]. cbn. rewrite IH. by destruct c. }
  assert (forall (s : gmap string (gmap items_t V)), foldl hirm_data_after s cs = s) as ->; [|done]. clear -Hc. induction Hc as [|c cs H _ IH]; intros s; [done|]. cbn. rewrite IH. by destruct c.
Qed.
Lemma renamed_self fwd rev A A' : decodes fwd rev -> renamed rev rev A A' -> A' = A.
Proof.
  intros Hd Hr. apply map_eq. intros d. pose proof (rn_domains _ _ _ _ Hr) as Hdom.
  assert (is_Some (A' !! d) <-> is_Some (A !! d)) as Hs by (rewrite <- !elem_of_dom; by rewrite Hdom).
  assert (forall i, seat A' d i = seat A d i) as Hseat.
  { intros i. apply option_eq. intros t. split; intros Hi.
    - destruct (rn_named' _ _ _ _ Hr d i t Hi) as [x Hx]. destruct (proj2 (rn_seats _ _ _ _ Hr d x t)) as (j & Hj & Hjs); [eauto|]. by rewrite (named_inj _ _ _ _ _ _ Hd Hx Hj).
    - destruct (rn_named _ _ _ _ Hr d i t Hi) as [x Hx]. destruct (proj1 (rn_seats _ _ _ _ Hr d x t)) as (j & Hj & Hjs); [eauto|]. by rewrite (named_inj _ _ _ _ _ _ Hd Hx Hj). }
  unfold seat in Hseat. destruct (A' !! d) as [b'|], (A !! d) as [b|].
  - f_equal. apply map_eq. exact Hseat.
  - destruct (proj1 Hs) as [? ?]; [eauto|done].
  - destruct (proj2 Hs) as [? ?]; [eauto|done].
  - done.
Qed.
(** A model is made from a schema, given observations, changed by any inference, written to a
    file and made again from the schema, the observations and the file.  The second model has
    the relations and the entities in the same clusters as the first, the same data for every
    relation that was observed, and data for the same tuples for the others. *)
Theorem C59_round_trip {V} (parse : string -> string -> outcome V) schema obs o0 E o r0 h0 r1 r h1 r2 cs h o1 file o2 r3 h' r4 :
  schema_lawful schema -> schema_draws_keep schema -> orders_ok o0 -> orders_ok o -> orders_ok o1 -> orders_ok o2 ->
  calculate_encoding o0 (t_domains <$> schema) obs = Ok E ->
  hirm_new schema r0 = Ok (h0, r1) -> incorporate_observations hirm_ops parse o h0 E obs r = Ok (h1, r2) ->
  hirm_run h1 cs h -> Forall inference cs -> hirm_printable (enc_r E) h ->
  hirm_to_txt o1 (enc_r E) h = Ok file ->
  hirm_from_txt parse o2 schema obs E file r3 = Ok (h', r4) ->
  (forall n, table_of h' n = table_of h n) /\
  (forall t, match h_irms h !! t, h_irms h' !! t with
     | Some ir, Some ir' => forall A, world_holds (i_domains ir) A -> world_holds (i_domains ir') A
     | None, None => True | _, _ => False end) /\
  (forall n, (dom <$> hirm_data h' !! n) = (dom <$> hirm_data h !! n)) /\
  exists eobs, encode_observations o (enc_f E) (fun rel => t_domains <$> schema !! rel) obs = Ok eobs /\
    forall n, is_Some (eobs !! n) -> hirm_data h' !! n = hirm_data h !! n.
Proof.
  intros HL HD Ho0 Ho Ho1 Ho2 HE H0 H1 Hrun Hinf Hp Hf H. pose proof (encoding_decodes _ _ _ _ Ho0 HE) as Hdec.
  destruct (proj1 (hirm_new_spec schema r0 HL) _ _ H0) as [Hb0 Hs0]. pose proof Hb0 as ([a0 Hh0] & _ & Hl0 & Hdat0).
  destruct (C29_effect parse schema r0 h0 r1 [] h0 o E obs r h1 r2 HL H0 (gentle_nil h0) ltac:(by rewrite Hs0) Ho H1) as (Hs1 & _ & [a1 Hh1] & eobs & He & Hld1).
  destruct (inference_run h1 cs h a1 Hrun Hinf Hh1) as ([a Hh] & Hs & Hdat). assert (h_schema h = schema) as Hsch by congruence.
  rewrite <- Hsch in H. destruct (C59_effect parse h a o1 o2 (enc_r E) E obs file r3 h' r4 (enc_f E) Hh ltac:(by rewrite Hsch) Ho1 Ho2 Hdec Hdec Hp Hf H) as ([Rs Rt Ri] & [a' Hh'] & eobs' & He' & Hld').
  rewrite Hsch in He', Hld'. rewrite Hs0 in He, Hld1. assert (eobs' = eobs) as -> by (by eapply (encode_order o2 o)).
  assert (forall n, (dom <$> hirm_data h' !! n) = (dom <$> hirm_data h !! n) /\ (is_Some (eobs !! n) -> hirm_data h' !! n = hirm_data h !! n)) as Hdd.
  { intros n. specialize (Hld1 n). specialize (Hld' n). rewrite Hdat.
    destruct (schema !! n) as [ty|] eqn:Ety; cbn in Hld'.
    - assert (hirm_data h0 !! n = Some ∅) as E0.
      { rewrite <- Hs0 in Ety. destruct (member h0 a0 n ty Hh0 Ety) as (? & ? & ? & ? & x & _ & _ & _ & _ & _ & _ & _ & _ & Hx).
        assert (hirm_data h0 !! n = Some (any_data x)) as Hx' by by rewrite (hirm_data_lookup h0 a0 n Hh0), Hx. rewrite Hx'. f_equal. by eapply Hdat0. }
      rewrite E0 in Hld1.
      assert (forall k ak, hirm_holds k ak -> h_schema k = schema -> exists d, hirm_data k !! n = Some d) as Hex.
      { intros k ak Hk Hks. rewrite <- Hks in Ety. destruct (member k ak n ty Hk Ety) as (? & ? & ? & ? & x & _ & _ & _ & _ & _ & _ & _ & _ & Hx).
        exists (any_data x). by rewrite (hirm_data_lookup k ak n Hk), Hx. }
      destruct (Hex h1 a1 Hh1) as [d1 E1]; [congruence|]. destruct (Hex h' a' Hh') as [d' E']; [congruence|]. rewrite E1, E' in *.
      destruct (loaded_same parse eobs _ _ n d' d1 Hld' Hld1) as [Hdom Heq]. split; [cbn; by rewrite Hdom|]. intros Hi. f_equal. by apply Heq.
    - assert (forall k : hirm V, h_schema k = schema -> hirm_data k !! n = None) as Hno by (intros k Hk; unfold hirm_data; by rewrite map_lookup_imap, Hk, Ety).
      rewrite (Hno h'), (Hno h1) by congruence. done. }
  split_and!; [done| |by apply Hdd|exists eobs; split; [done|]; intros n; apply Hdd].
  intros t. specialize (Ri t). destruct (h_irms h !! t) as [ir|] eqn:Hir, (h_irms h' !! t) as [ir'|] eqn:Hir'; try done.
  intros A HA. destruct (irm_at_holds h' a' t ir' Hh' Hir') as [A' HA']. destruct (Ri A A' HA (ih_world _ _ _ HA')) as (A0 & Hren & Hext).
  rewrite (renamed_self _ _ _ _ Hdec Hren) in Hext. assert (A' = A) as <-; [|apply HA'].
  destruct Hext as [Ed Es Eo]. assert (forall d i, seat A' d i = seat A d i) as Hseat.
  { intros d i. destruct (seat A d i) as [c|] eqn:Esa; [by apply Es|]. destruct (seat A' d i) as [c|] eqn:Esa'; [|done]. exfalso.
    destruct (Eo d i) as [[? ?]|(n & ty & m & items & Hty & Htn & Hm & Hits & Hmen)]; [rewrite Esa'; eauto|congruence|].
    rewrite Rs, Hsch in Hty. destruct (Hdd n) as [Hdom _]. rewrite Hm in Hdom. cbn in Hdom. destruct (hirm_data h !! n) as [mh|] eqn:Emh; [|done].
    cbn in Hdom. injection Hdom as Hdom. rewrite <- Hsch in Hty. destruct (member h a n ty Hh Hty) as (rc & tb & ir2 & A2 & x & _ & _ & Htb & Hir2 & HA2 & _ & Hrn & Htx & Hx).
    rewrite Rt in Htn. assert (tb = t) as -> by congruence. assert (ir2 = ir) as -> by congruence. rewrite (world_holds_fun _ _ _ HA (ih_world _ _ _ HA2)) in Esa.
    destruct (any_holds_mentions _ _ x d i (ih_rels _ _ _ HA2 n x Hrn)) as [c' Hc']; [|congruence].
    exists items. rewrite (hirm_data_lookup h a n Hh), Hx in Emh. injection Emh as <-. split; [|by rewrite Htx, any_type_t_domains in Hmen].
    apply elem_of_dom. rewrite <- Hdom. by apply elem_of_dom. }
  apply map_eq. intros d. unfold seat in Hseat. specialize (Hseat d). assert (is_Some (A' !! d) <-> is_Some (A !! d)) as Hss by (rewrite <- !elem_of_dom; by rewrite Ed).
  destruct (A' !! d) as [b'|], (A !! d) as [b|]; [f_equal; by apply map_eq| | |done].
  - destruct (proj1 Hss) as [? ?]; [eauto|done].
  - destruct (proj2 Hss) as [? ?]; [eauto|done].
Qed.
Print Assumptions C59_round_trip.

(** A noisy relation named after its base, observations of it alone, some inference. *)
Definition C59_schema : gmap string (t_rel bool) :=
  {[ "r" := TClean ["d"; "c"] true tally_dist tt; "s" := TNoisy ["d"; "c"] true (copy_emission bool) tt "r" ]}.
Lemma C59_schema_lawful : schema_lawful C59_schema.
Proof.
  intros name t. unfold C59_schema. intros [[<- <-]|[Hne Ht]]%lookup_insert_Some.
  - split; [by exists tally_lawful|done].
  - apply lookup_singleton_Some in Ht as [<- <-]. split; [by exists (count_lawful _)|]. intros b tb [= <-].
    rewrite lookup_insert. intros [= <-]. simpl. lia.
Qed.
Definition C59_obs : observations := {[ "s" := [(["ann"; "red"], "0"); (["bob"; "red"], "1"); (["eve"; "blue"], "1")] ]}.
Definition C59_calls : list (hirm_call bool) := [HMove some_orders "s" 7 [0; 1; 0; 1; 1; 0]; HMove rev_orders "r" 7 [1; 0; 1; 1; 1; 0]; HMove some_orders "s" 12 [0; 1; 1; 1; 0]].
Example C59_met : exists E h0 r1 h1 r2 h file h' r4,
  schema_lawful C59_schema /\ schema_draws_keep C59_schema /\ orders_ok some_orders /\ orders_ok rev_orders /\
  calculate_encoding some_orders (t_domains <$> C59_schema) C59_obs = Ok E /\
  hirm_new C59_schema [0; 1] = Ok (h0, r1) /\ incorporate_observations hirm_ops C29_parse some_orders h0 E C59_obs [1; 0; 1] = Ok (h1, r2) /\
  hirm_run h1 C59_calls h /\ Forall inference C59_calls /\ hirm_printable (enc_r E) h /\
  hirm_to_txt rev_orders (enc_r E) h = Ok file /\ hirm_from_txt C29_parse rev_orders C59_schema C59_obs E file [1; 1; 1] = Ok (h', r4) /\
  dom (h_irms h') = {[ 7%Z; 12%Z ]} /\ table_of h' "s" = Some 12%Z.
Proof.
  assert ((let* E := calculate_encoding some_orders (t_domains <$> C59_schema) C59_obs in
    let* (h0, r1) := hirm_new C59_schema [0; 1] in
    let* (h1, r2) := incorporate_observations hirm_ops C29_parse some_orders h0 E C59_obs [1; 0; 1] in
    let* h := foldM hirm_do h1 C59_calls in
    let* file := hirm_to_txt rev_orders (enc_r E) h in
    let* (h', r4) := hirm_from_txt C29_parse rev_orders C59_schema C59_obs E file [1; 1; 1] in
    Ok (hirm_ok (enc_r E) h, dom (h_irms h'), table_of h' "s")) = Ok (true, {[ 7%Z; 12%Z ]}, Some 12%Z)) as H by by_compute.
  apply obind_Ok in H as (E & HE & H). apply obind_Ok in H as ([h0 r1] & H0 & H). apply obind_Ok in H as ([h1 r2] & H1 & H). apply obind_Ok in H as (h & Hc & H).
  apply obind_Ok in H as (file & Hf & H). apply obind_Ok in H as ([h' r4] & H' & [= Hok Hd Ht]).
  assert (schema_draws_keep C59_schema) as HD.
  { intros name t. unfold C59_schema. intros [[_ <-]|[_ [_ <-]%lookup_singleton_Some]]%lookup_insert_Some; [|done]. intros s r v s' r'. cbn. by intros [= _ <- _]. }
  destruct (proj1 (hirm_new_spec C59_schema [0; 1] C59_schema_lawful) _ _ H0) as [_ Hs0].
  destruct (C29_effect C29_parse C59_schema [0; 1] h0 r1 [] h0 some_orders E C59_obs [1; 0; 1] h1 r2 C59_schema_lawful H0 (gentle_nil h0) ltac:(by rewrite Hs0) some_orders_ok H1) as (Hs1 & _ & [a1 Hh1] & _).
  exists E, h0, r1, h1, r2, h, file, h', r4.
  split_and!; [apply C59_schema_lawful|exact HD|apply some_orders_ok|apply rev_orders_ok|exact HE|exact H0|exact H1| | |by apply hirm_ok_sound|exact Hf|exact H'|exact Hd|exact Ht].
  - eapply run_of_foldM; [exact Hh1|exact Hc|]. simpl. pose proof some_orders_ok. pose proof rev_orders_ok. by split_and!.
  - repeat constructor.
Qed.

(** ** A saved HIRM that cannot be loaded *)
(** The loader declares the relations in the order of their names, so it returns only if the
    name of every base comes before the names of the relations built on it ... *)
Lemma declare_bases {V} o (schema : gmap string (t_rel V)) l : orders_ok o -> schema_lawful schema -> forall h r st, declared schema h ->
  foldM (declare_relation o schema) (h, r) l = Ok st -> forall l1 n l2 ty b, l = (l1 ++ n :: l2)%list -> schema !! n = Some ty -> t_base ty = Some b ->
  is_Some (h_schema h !! b) \/ b ∈ l1.
Proof.
  intros Ho HL. induction l as [|k l IH]; intros h r st Hd H l1 n l2 ty b El Hty Hb; [by destruct l1|]. cbn [foldM] in H. apply obind_Ok in H as ([h1 r1] & H1 & H).
  destruct (proj1 (declare_spec o schema h k r Ho HL Hd) _ _ H1) as (Hd1 & ty1 & Hty1 & Hs1). destruct l1 as [|k' l1].
  - injection El as -> ->. left. assert (ty1 = ty) as -> by congruence. unfold declare_relation in H1. rewrite Hty1 in H1. cbn [at_ obind] in H1. apply obind_Ok in H1 as ([h2 r2] & H1 & _).
    unfold hirm_add_relation in H1. apply obind_Ok in H1 as (u & _ & H1). cbv zeta in H1. apply obind_Ok in H1 as ([tb r3] & _ & H1). apply obind_Ok in H1 as (c & _ & H1). apply obind_Ok in H1 as (u' & Hbase & _).
    destruct ty as [|ds ob E sp base]; [done|]. injection Hb as ->. destruct (h_code h !! b) as [rc|] eqn:Ec; [|by destruct (<[n:=_]> (h_schema h) !! b)].
    destruct Hd as [([a Hh] & _) _ _]. apply (hh_schema _ _ Hh). eauto.
  - injection El as <- ->. destruct (IH h1 r1 st Hd1 H l1 n l2 ty b eq_refl Hty Hb) as [Hi|Hi]; [|right; by right].
    rewrite Hs1 in Hi. destruct (decide (b = k)) as [->|Hne]; [right; by left|]. rewrite lookup_insert_ne in Hi by done. by left.
Qed.
Theorem C59_needs_bases_first {V} (parse : string -> string -> outcome V) o schema obs E file r st :
  orders_ok o -> schema_lawful schema -> hirm_from_txt parse o schema obs E file r = Ok st ->
  forall n ty b, schema !! n = Some ty -> t_base ty = Some b -> str_lt b n.
Proof.
  intros Ho HL H n ty b Hty Hb. unfold hirm_from_txt in H. apply obind_Ok in H as ([rels irms] & _ & H). apply obind_Ok in H as ([h1 r1] & H & _).
  unfold hirm_place in H. apply obind_Ok in H as ([h2 r2] & H & _).
  assert (n ∈ sorted_names schema) as Hin by (apply elem_of_sorted_names; eauto). apply elem_of_list_split in Hin as (l1 & l2 & El).
  destruct (declare_bases o schema (sorted_names schema) Ho HL hirm_empty r _ (declared_empty schema) H l1 n l2 ty b El Hty Hb) as [[? Hx]|Hin]; [by cbn in Hx; rewrite lookup_empty in Hx|].
  apply (sorted_before l1 l2 n b); rewrite <- ?El; [apply StronglySorted_sorted_names|apply NoDup_sorted_names| |done]. rewrite El. apply elem_of_app. by left.
Qed.
Print Assumptions C59_needs_bases_first.
(** ... although the constructor of a HIRM takes the relations in any order.  So a HIRM can be
    made from a schema, given observations and saved, and loading what was saved throws. *)
Theorem C59_load_refuted : exists E h0 r1 h1 r2 file, schema_lawful C15_schema /\ orders_ok some_orders /\
  calculate_encoding some_orders (t_domains <$> C15_schema) C29_noisy = Ok E /\ hirm_new C15_schema [0; 1] = Ok (h0, r1) /\
  incorporate_observations hirm_ops C29_parse some_orders h0 E C29_noisy [] = Ok (h1, r2) /\ hirm_printable (enc_r E) h1 /\
  hirm_to_txt some_orders (enc_r E) h1 = Ok file /\
  hirm_from_txt C29_parse some_orders C15_schema C29_noisy E file [] = Throws.
Proof.
  assert ((let* E := calculate_encoding some_orders (t_domains <$> C15_schema) C29_noisy in
    let* (h0, r1) := hirm_new C15_schema [0; 1] in
    let* (h1, r2) := incorporate_observations hirm_ops C29_parse some_orders h0 E C29_noisy [] in
    let* file := hirm_to_txt some_orders (enc_r E) h1 in
    Ok (hirm_ok (enc_r E) h1, match hirm_from_txt C29_parse some_orders C15_schema C29_noisy E file [] with Throws => true | _ => false end)) = Ok (true, true)) as H by by_compute.
  apply obind_Ok in H as (E & HE & H). apply obind_Ok in H as ([h0 r1] & H0 & H). apply obind_Ok in H as ([h1 r2] & H1 & H).
  apply obind_Ok in H as (file & Hf & [= Hok Ht]). exists E, h0, r1, h1, r2, file.
  split_and!; [apply C15_schema_lawful|apply some_orders_ok|exact HE|exact H0|exact H1|by apply hirm_ok_sound|exact Hf|].
  destruct (hirm_from_txt _ _ _ _ _ _ _); solve [discriminate Ht|reflexivity].
Qed.
Print Assumptions C59_load_refuted.

(** ** A single IRM *)
Lemma irm_adds_new {V} (schema : gmap string (t_rel V)) ir :
  foldM (fun ir name => let* t := at_ (schema !! name) in irm_add_relation ir name t) irm_empty (sorted_names schema) = Ok ir -> irm_new schema = Ok ir.
Proof.
  intros H. destruct (irm_new_loop schema (sorted_names schema) irm_empty frame_ok_empty (NoDup_sorted_names schema)) as [_ Hfr].
  { intros n _. simpl. by rewrite dom_empty_L. }
  { intros n. apply elem_of_sorted_names. }
  unfold irm_new. rewrite H. cbn [obind]. destruct (Hfr ir H) as [_ Hd]. by rewrite bool_decide_eq_true_2 by (rewrite <- !size_dom; by rewrite Hd).
Qed.
Lemma irm_sample_keeps {V} ar (ir : irm V) A n items r v ir' r' : irm_holds ar ir A -> schema_draws_keep (i_schema ir) ->
  irm_sample_at ir n items r = Ok (v, ir', r') -> ir' = ir.
Proof.
  intros Hh HD H. unfold irm_sample_at in H. apply obind_Ok in H as (x & Hx%at_Ok & H). apply obind_Ok in H as ([[v1 x'] r1] & Hs & [= <- <- <-]).
  assert (x' = x) as ->.
  { destruct x as [D rel|nz]; cbn [any_sample_at_items] in Hs.
    - apply obind_Ok in Hs as ([[v2 rel'] r2] & Hs & [= <- <- <-]). f_equal. eapply sample_at_items_keeps; [|done].
      pose proof (ih_schema _ _ _ Hh n) as Hsc. rewrite Hx in Hsc. destruct (i_schema ir !! n) as [ty|] eqn:E; [|done]. cbn in Hsc. rewrite Hsc in E. exact (HD _ _ E).
    - apply obind_Ok in Hs as (b & _ & Hs). by apply obind_Ok in Hs as ([v2 r2] & _ & [= <- <- <-]). }
  unfold i_set_rel. rewrite (insert_id _ _ _ Hx). by destruct ir.
Qed.
Definition irm_growing {V} (schema : gmap string (t_rel V)) (A0 : clustering) (ir : irm V) : Prop :=
  i_schema ir = schema /\ exists A, irm_holds (schema_arity schema) ir A /\ irm_extends ir A0 A.
Lemma irm_growing_laws {V} (schema : gmap string (t_rel V)) A0 : schema_draws_keep schema ->
  ops_laws irm_ops (irm_growing schema A0) irm_dat (base_arity schema).
Proof.
  intros HD. pose proof (irm_ops_laws schema) as L.
  assert (forall ir, irm_growing schema A0 ir -> irm_as_declared schema ir) as Hdecl.
  { intros ir (Hs & A & HA & _). rewrite <- Hs. by eapply irm_holds_declared. }
  split.
  - intros m n items v r m' r' HI H. destruct (l_inc _ _ _ _ L m n items v r m' r' (Hdecl _ HI) H) as [_ Hd]. split; [|done].
    destruct HI as (Hs & A & HA & [X1 X2 X3]). cbn [irm_ops op_incorporate] in H.
    destruct (irm_incorporate_spec _ _ m A n items v r m' r' HA (irm_lookup_arity _ m A HA) H) as (A' & x & HA' & (Hs' & _ & _ & Hsh) & Hx & _ & _ & Hdat & Hdom & Hkeep & Hnew).
    split; [congruence|]. exists A'. split; [done|]. split; [congruence|eauto|].
    assert (forall k y, i_rels m !! k = Some y -> exists y', i_rels m' !! k = Some y' /\ any_doms y' = any_doms y /\ forall its, is_Some (any_data y !! its) \/ (k = n /\ its = items) -> is_Some (any_data y' !! its)) as Hy.
    { intros k y Hk. assert (irm_data m' !! k = any_data <$> i_rels m' !! k) as Ek by (unfold irm_data; by rewrite lookup_fmap).
      destruct (shape_lookup _ _ _ _ (eq_sym Hsh) Hk) as (y' & Hy' & Hdy & _). exists y'. split_and!; [done..|]. rewrite Hy' in Ek. cbn in Ek. rewrite Hdat in Ek. intros its Hi.
      destruct (decide (k = n)) as [->|Hne].
      - rewrite lookup_insert in Ek. injection Ek as <-. assert (y = x) as -> by congruence.
        destruct (decide (its = items)) as [->|Hni]; [rewrite lookup_insert; eauto|rewrite lookup_insert_ne by done]. destruct Hi as [?|[_ ?]]; done.
      - rewrite lookup_insert_ne in Ek by done. assert (irm_data m !! k = Some (any_data y)) as E2 by (unfold irm_data; by rewrite lookup_fmap, Hk). rewrite E2 in Ek. injection Ek as Ek. rewrite <- Ek.
        destruct Hi as [?|[? _]]; done. }
    intros d i Hi. apply Hnew in Hi as [Hi|Hm].
    + destruct (X3 d i Hi) as [?|(k & y & Hk & its & Hits & Hm)]; [by left|right]. destruct (Hy k y Hk) as (y' & Hy' & Hdy & Hdd). exists k, y'. split; [done|]. exists its. split; [by apply Hdd; left|]. by rewrite Hdy.
    + right. destruct (Hy n x Hx) as (y' & Hy' & Hdy & Hdd). exists n, y'. split; [done|]. exists items. split; [apply Hdd; by right|]. by rewrite Hdy.
  - intros m n items r v m' r' HI H. cbn [irm_ops op_sample_at] in H. pose proof HI as (Hs & A & HA & _). apply (irm_sample_keeps (schema_arity schema) m A) in H as ->; [done|done|by rewrite Hs].
  - intros m n x HI. apply (l_get _ _ _ _ L), Hdecl, HI.
  - intros m n x nz b HI. apply (l_base _ _ _ _ L), Hdecl, HI.
Qed.
(** The file of any IRM, loaded with the same schema and any observations. *)
Theorem C59_irm {V} (parse : string -> string -> outcome V) (ir : irm V) ar A o o' fwd rev E' obs file r ir' r' :
  irm_holds ar ir A -> schema_lawful (i_schema ir) -> schema_draws_keep (i_schema ir) -> orders_ok o -> orders_ok o' ->
  decodes fwd rev -> decodes (enc_f E') (enc_r E') -> printable_names rev A -> table_numbers table_number A ->
  irm_to_txt o rev (i_domains ir) [] = Ok file ->
  irm_from_txt parse o' (i_schema ir) obs E' file r = Ok (ir', r') ->
  i_schema ir' = i_schema ir /\
  (exists A0 A', renamed rev (enc_r E') A A0 /\ irm_holds (schema_arity (i_schema ir)) ir' A' /\ irm_extends ir' A0 A') /\
  exists eobs, encode_observations o' (enc_f E') (fun rel => t_domains <$> i_schema ir !! rel) obs = Ok eobs /\
    forall n, loaded parse eobs (base_in (i_schema ir)) (base_arity (i_schema ir)) n ((fun _ => ∅) <$> i_schema ir !! n) (any_data <$> i_rels ir' !! n).
Proof.
  intros HA HL HD Ho Ho' Hd Hd' Hp Ht Hf H. set (schema := i_schema ir) in *.
  destruct (irm_clusters o rev (i_domains ir) A Ho (ih_world _ _ _ HA) Hp) as (file' & cl & Hf' & Hl & Hs).
  { intros d a i t Ha Hi. by eapply table_in_range, Ht. }
  assert (file' = file) as -> by congruence. unfold irm_from_txt in H. rewrite Hl in H. cbn [obind] in H. apply obind_Ok in H as (ir1 & Hadd & H). apply obind_Ok in H as ([W r1] & HW & H).
  apply irm_adds_new in Hadd. destruct (irm_new_holds schema ir1 HL Hadd) as (A1 & HA1 & Hs1 & Hseat1 & Hdat1). rewrite Hs1 in HA1.
  assert (forall d i c, seat A d i = Some c -> exists x, named rev d i x) as Hnamed.
  { intros d i c Hi. unfold seat in Hi. destruct (A !! d) as [ad|] eqn:E; [|done]. cbn in Hi. destruct (Hp d ad E) as [_ Hx].
    destruct (Hx i c Hi) as (m & x & Hm & Hx' & _). exists x, m. done. }
  assert (forall d i t x, seat A d i = Some t -> named rev d i x -> exists i', named (enc_r E') d i' x) as Hk.
  { intros d i c x Hi Hx. destruct (shows_listed rev A cl d i c x Hs Hi Hx) as (m & l & Hm & Hl' & Hxl).
    destruct (seat_clusters_known _ _ _ _ _ HW d m c l x Hm Hl' Hxl) as (f & i' & Hf0 & Hi'). exists i'. apply (named_fwd (enc_f E')); eauto. }
  pose proof (recode_renamed fwd rev (enc_f E') (enc_r E') A Hd Hd' Hnamed Hk) as Hr. set (A0 := recode rev (enc_f E') A) in *.
  assert (dom A1 = dom A0) as Hdom.
  { rewrite (rn_domains _ _ _ _ Hr). apply set_eq. intros d. rewrite (irm_domains_schema _ _ _ d HA1), (irm_domains_schema _ _ _ d HA). by rewrite Hs1. }
  destruct (seat_clusters_ok (enc_f E') (enc_r E') A0 cl (i_domains ir1) r Hd') as (W' & HW' & HWA); [by eapply renamed_shows| | |].
  { intros d ad i c Had Hi. assert (seat A0 d i = Some c) as Hsd by (unfold seat; by rewrite Had).
    destruct (rn_named' _ _ _ _ Hr d i c Hsd) as (x & m & Hm & Hx). split; [|eauto].
    apply (recode_seat fwd rev (enc_f E') (enc_r E')) in Hsd as (j & y & Hj & _); [|done..]. unfold seat in Hj. destruct (A !! d) as [b|] eqn:E; [|done]. cbn in Hj. by destruct (Ht d b j c E Hj). }
  { apply (vacant_world ir1 A1); [|apply HA1|done]. intros d dm Hdm. pose proof (ih_world _ _ _ HA1 d) as Hw. rewrite Hdm in Hw. destruct (A1 !! d) as [b|] eqn:E; [|done].
    assert (b = ∅) as ->; [|done]. apply map_eq. intros i. specialize (Hseat1 d i). unfold seat in Hseat1. rewrite E in Hseat1. cbn in Hseat1. by rewrite lookup_empty. }
  rewrite HW in HW'. injection HW' as <- <-.
  assert (irm_holds (schema_arity schema) (i_set_domains ir1 W) A0) as Hnew.
  { unfold i_set_domains. apply (irm_holds_update _ ir1 A1 W (i_rels ir1) _ HA1 HWA); [done|done|].
    intros n x Hx. eapply any_holds_ext; [| |exact (ih_rels _ _ _ HA1 n x Hx)].
    - intros d Hdd. rewrite <- Hdom. apply (ih_used _ _ _ HA1). eauto.
    - intros d e (k & [v Hkv] & _). by rewrite (Hdat1 n x Hx), lookup_empty in Hkv. }
  unfold incorporate_observations in H. apply obind_Ok in H as (eobs & He & H). cbn [irm_ops op_domains] in He. change (i_schema (i_set_domains ir1 W)) with (i_schema ir1) in He. rewrite Hs1 in He.
  destruct (incorporate_encoded_spec irm_ops parse _ _ _ (irm_growing_laws schema A0 HD) o' eobs (i_set_domains ir1 W) r1 ir' r' (base_in schema) Ho') as (HI & Hld & _); [| |done|].
  - split; [done|]. exists A0. split; [done|]. split; [done|done|]. intros d i Hi. by left.
  - intros n b. cbn [irm_ops op_b2n]. change (i_b2n (i_set_domains ir1 W)) with (i_b2n ir1). by apply (irm_new_listed schema ir1 HL Hadd).
  - destruct HI as (Hs' & A' & HA' & Hext). split_and!; [done| |].
    + exists A0, A'. split_and!; [done|exact HA'|done].
    + exists eobs. split; [done|]. intros n. specialize (Hld n). unfold irm_dat in Hld. change (i_rels (i_set_domains ir1 W)) with (i_rels ir1) in Hld.
      assert ((any_data <$> i_rels ir1 !! n) = (fun _ => ∅) <$> schema !! n) as E; [|by rewrite E in Hld].
      pose proof (ih_schema _ _ _ HA1 n) as Hsc. rewrite Hs1 in Hsc. destruct (schema !! n), (i_rels ir1 !! n) as [x|] eqn:Ex; try done. cbn. by rewrite (Hdat1 n x Ex).
Qed.
Print Assumptions C59_irm.
(** A noisy relation and its base in one IRM. *)
Example C59_irm_met : exists E ir A file ir' r', irm_holds (schema_arity C59_schema) ir A /\ i_schema ir = C59_schema /\ schema_lawful C59_schema /\ schema_draws_keep C59_schema /\
  orders_ok some_orders /\ decodes (enc_f E) (enc_r E) /\ printable_names (enc_r E) A /\ table_numbers table_number A /\
  irm_to_txt some_orders (enc_r E) (i_domains ir) [] = Ok file /\ irm_from_txt C29_parse some_orders C59_schema C59_obs E file [1; 1; 1] = Ok (ir', r') /\
  (size <$> A !! "d") = Some 3.
Proof.
  assert ((let* E := calculate_encoding some_orders (t_domains <$> C59_schema) C59_obs in
    let* ir0 := irm_new C59_schema in
    let* (ir, r2) := incorporate_observations irm_ops C29_parse some_orders ir0 E C59_obs [1; 0; 1] in
    let* file := irm_to_txt some_orders (enc_r E) (i_domains ir) [] in
    let* (ir', r4) := irm_from_txt C29_parse some_orders C59_schema C59_obs E file [1; 1; 1] in
    Ok (world_ok (enc_r E) (i_domains ir), size <$> clustering_of (i_domains ir) !! "d")) = Ok (true, Some 3)) as H by by_compute.
  apply obind_Ok in H as (E & HE & H). apply obind_Ok in H as (ir0 & H0 & H). apply obind_Ok in H as ([ir r2] & H1 & H).
  apply obind_Ok in H as (file & Hf & H). apply obind_Ok in H as ([ir' r4] & H' & [= Hok Hd]).
  assert (schema_draws_keep C59_schema) as HD.
  { intros name t. unfold C59_schema. intros [[_ <-]|[_ [_ <-]%lookup_singleton_Some]]%lookup_insert_Some; [|done]. intros s r v s' r'. cbn. by intros [= _ <- _]. }
  destruct (irm_new_holds C59_schema ir0 C59_schema_lawful H0) as (A0 & HA0 & Hs0 & _). rewrite Hs0 in HA0.
  unfold incorporate_observations in H1. apply obind_Ok in H1 as (eobs & _ & H1).
  destruct (incorporate_encoded_spec irm_ops C29_parse _ _ _ (irm_growing_laws C59_schema A0 HD) some_orders eobs ir0 [1; 0; 1] ir r2 (base_in C59_schema) some_orders_ok) as ((Hs & A & HA & _) & _); [| |done|].
  - split; [done|]. exists A0. split; [done|]. split; [done|done|]. intros d i Hi. by left.
  - intros n b. cbn [irm_ops op_b2n]. apply (irm_new_listed C59_schema ir0 C59_schema_lawful H0).
  - destruct (world_ok_sound _ _ A Hok (ih_world _ _ _ HA)) as (P1 & P2 & _). exists E, ir, A, file, ir', r4.
    split_and!; [exact HA|exact Hs|apply C59_schema_lawful|exact HD|apply some_orders_ok|exact (encoding_decodes _ _ _ _ some_orders_ok HE)|exact P1|exact P2|exact Hf|exact H'|].
    by rewrite (clustering_of_holds _ _ (ih_world _ _ _ HA)).
Qed.
