(** C65, C66 and C67: resampling the references of a GenDB. *)
From Coq Require Import String Ascii.
From stdpp Require Import gmap strings list sorting relations.
From Coq Require Import ZArith Reals Lia Lra.
From Verif Require Import M_base M_math M_crp M_domain M_dist M_relation M_noisy M_irm M_logp M_hirm M_inference M_schema M_pclean_io M_gendb M_gendb_rels
  M_gendb_state M_pclean M_gendb_trans
  S_crp S_crp_state S_irm S_hirm S_inference S_gendb S_gendb_rels S_gendb_state S_gendb_life P_base T_gendb_schema P_crp P_irm_schema P_inference P_gendb P_gendb_links P_gendb_rels
  P_tally P_hirm_move T_irm T_gendb_rels P_gendb_ents P_gendb_fill P_gendb_data P_gendb_blank P_gendb_vec P_gendb_reach T_gendb_state T_gendb_rows P_gendb_trans
  P_gendb_move P_gendb_life P_gendb_keep P_gendb_inv.
Local Open Scope nat_scope.

Section Passes.
Context {V : Type} (rid : hash_fn) (build : hdecl -> t_rel V) (show : V -> string) (record_is_clean : bool) (s : pschema).
Hypotheses (WF : well_formed s) (Honce : record_is_clean = true -> record_queried_once s) (Hsh : forall c, shallow (ps_classes s) c)
  (Hfaith : faithful build).
Notation cs := (ps_classes s).
Notation life := (gendb_life rid build show false record_is_clean s).

Lemma life_move o to g c f i r r2 g' r' : life g -> orders_ok o -> torders_ok to -> rtc (references cs) (pq_record (ps_query s)) c ->
  transition_reference rid o to g c f i r r2 = Ok (g', r') -> exists m, moves rid build record_is_clean s m c f i g g'.
Proof.
  intros Hg Ho Hto Hc H. destruct (life_inv rid build record_is_clean s WF Honce Hsh Hfaith show g Hg) as (fuel & dm & refs & m & Hdm & Hrefs & Hm & Hi & Hs).
  exists m. by eapply (transition_ok rid build record_is_clean s WF Honce Hsh Hfaith fuel dm refs m Hdm Hrefs Hm).
Qed.
Lemma life_schema g : life g -> g_schema g = s.
Proof.
  intros Hg. destruct (life_inv rid build record_is_clean s WF Honce Hsh Hfaith show g Hg) as (fuel & dm & refs & m & Hdm & Hrefs & Hm & Hi & Hs).
  apply Hi.
Qed.
(** What a pass over the references keeps. *)
Definition kept (g g' : gendb V) : Prop :=
  life g' /\ same_cells s g g' /\ forall c f i, (exists x, recorded (g_ents g) c f i x) -> exists x, recorded (g_ents g') c f i x.
Lemma kept_refl g : life g -> kept g g. Proof. done. Qed.
Lemma kept_trans g1 g2 g3 : kept g1 g2 -> kept g2 g3 -> kept g1 g3.
Proof.
  intros (_ & C1 & R1) (L2 & C2 & R2). split_and!; [done| |auto]. intros q Hq k v. rewrite (C2 q Hq k v). by apply C1.
Qed.
Lemma kept_move o to g c f i r r2 g' r' : life g -> orders_ok o -> torders_ok to -> rtc (references cs) (pq_record (ps_query s)) c ->
  transition_reference rid o to g c f i r r2 = Ok (g', r') -> kept g g'.
Proof.
  intros Hg Ho Hto Hc H. destruct (life_move o to g c f i r r2 g' r' Hg Ho Hto Hc H) as [m M]. split_and!; [by eapply GL_move|apply M|].
  intros c' f' i' [x Hx]. destruct (decide ((c', f', i') = (c, f, i))) as [[= -> -> ->]|Hne].
  - destruct (mo_value _ _ _ _ _ _ _ _ _ _ M) as (k & x0 & x' & _ & _ & Hx' & _). eauto.
  - exists x. by apply (mo_except _ _ _ _ _ _ _ _ _ _ M).
Qed.
Lemma kept_class o to r2 (Ho : orders_ok o) (Hto : torders_ok to) fuel : forall st c st', rtc (references cs) (pq_record (ps_query s)) c -> life st.1 ->
  transition_class fuel rid o to r2 st c = Ok st' -> kept st.1 st'.1.
Proof.
  induction fuel as [|fuel IH]; intros st c st' Hc Hg H; cbn [transition_class] in H; [done|]. rewrite (life_schema _ Hg) in H.
  apply obind_Ok in H as (cl & Hcl%at_Ok & H). apply obind_Ok in H as (s1 & H1 & H). apply obind_Ok in H as (m & _ & H).
  assert (kept st.1 s1.1) as K1.
  { eapply (foldM_inv _ (fun z : gendb V * rng => kept st.1 z.1)) in H1; [done|by apply kept_refl|]. intros z v z' _ K Hz.
    unfold class_and_ancestors_step in Hz. destruct (cl !! v) as [[|k]|] eqn:Ev; [by injection Hz as <-| |by injection Hz as <-].
    eapply kept_trans; [exact K|]. eapply IH; [|apply K|exact Hz]. eapply rtc_r; [exact Hc|]. exists v, cl. done. }
  eapply (foldM_inv _ (fun z : gendb V * rng => kept st.1 z.1)) in H; [done|done|]. intros z [f i] [z' r'] _ K Hz.
  eapply kept_trans; [exact K|]. cbn in Hz |- *. eapply kept_move; [apply K|exact Ho|exact Hto|exact Hc|exact Hz].
Qed.
Lemma kept_infer g lg o late k n r h' r' : marks_observed build -> life g -> (forall j, orders_ok (o j)) ->
  inference_hirm lg o late k n (g_hirm g) r = Ok (h', r') -> kept g (g_set g (g_ents g) h').
Proof.
  intros HM Hg Ho H. split_and!; [by eapply GL_infer| |done].
  destruct (life_inv rid build record_is_clean s WF Honce Hsh Hfaith show g Hg) as (fuel & dm & refs & m & Hdm & Hrefs & Hm & Hi & Hs).
  destruct (infer_life rid build record_is_clean s m g lg o late k n r h' r' Ho Hi H) as [HK _].
  by eapply (infer_cells rid build record_is_clean s WF Honce fuel dm refs m Hdm Hrefs Hm).
Qed.
Lemma kept_inference lg o to late stop m r2 (HM : marks_observed build) (Ho : forall j, orders_ok (o j)) (Hto : torders_ok to) n : forall k g r g' r', life g ->
  inference_gendb lg rid o to late stop k n m g r r2 = Ok (g', r') -> kept g g'.
Proof.
  induction n as [|n IH]; intros k g r g' r' Hg H; cbn [inference_gendb] in H; [injection H as <- _; by apply kept_refl|].
  apply obind_Ok in H as ([h r1] & H1 & H). apply obind_Ok in H as ([g2 r3] & H2 & H). rewrite (life_schema _ Hg) in H2.
  pose proof (kept_infer g lg o (late k) 0 m r h r1 HM Hg Ho H1) as K1.
  assert (kept g g2) as K2.
  { eapply kept_trans; [exact K1|]. eapply (kept_class (o k) to r2 (Ho k) Hto) in H2; [exact H2|done|apply K1]. }
  destruct (stop k); [by injection H as <- _|]. eapply kept_trans; [exact K2|]. eapply IH; [apply K2|exact H].
Qed.
End Passes.

(** * C65: resampling references never changes the table *)
(** Resampling any reference of any class that the record class reaches leaves the value of
    every row in every query field as it was, whatever the state, the reference, the random
    choices and the orders of iteration. *)
Theorem C65_transition_keeps_table {V} : forall rid (build : hdecl -> t_rel V) show record_is_clean s g o to c f i r r2 g' r',
  well_formed s -> (record_is_clean = true -> record_queried_once s) -> (forall c, shallow (ps_classes s) c) -> faithful build ->
  gendb_life rid build show false record_is_clean s g -> orders_ok o -> torders_ok to -> rtc (references (ps_classes s)) (pq_record (ps_query s)) c ->
  transition_reference rid o to g c f i r r2 = Ok (g', r') -> same_cells s g g'.
Proof.
  intros rid build show cl s g o to c f i r r2 g' r' WF Hon Hsh Hf Hg Ho Hto Hc H. by eapply (kept_move rid build show cl s WF Hon Hsh Hf) in H as (_ & H & _).
Qed.
Print Assumptions C65_transition_keeps_table.
(** So does the pass over a class and the classes it refers to, and with it inference on a
    GenDB with any number of iterations; and what is left is a state like any other. *)
Theorem C65_class_keeps_table {V} : forall rid (build : hdecl -> t_rel V) show record_is_clean s g o to fuel c r r2 g' r',
  well_formed s -> (record_is_clean = true -> record_queried_once s) -> (forall c, shallow (ps_classes s) c) -> faithful build ->
  gendb_life rid build show false record_is_clean s g -> orders_ok o -> torders_ok to -> rtc (references (ps_classes s)) (pq_record (ps_query s)) c ->
  transition_class fuel rid o to r2 (g, r) c = Ok (g', r') -> gendb_life rid build show false record_is_clean s g' /\ same_cells s g g'.
Proof.
  intros rid build show cl s g o to fuel c r r2 g' r' WF Hon Hsh Hf Hg Ho Hto Hc H.
  eapply (kept_class rid build show cl s WF Hon Hsh Hf o to r2 Ho Hto) in H as (? & ? & _); [done|exact Hc|exact Hg].
Qed.
Print Assumptions C65_class_keeps_table.
Theorem C65_inference_keeps_table {V} : forall rid (build : hdecl -> t_rel V) show record_is_clean s g lg o to late stop k n m r r2 g' r',
  well_formed s -> (record_is_clean = true -> record_queried_once s) -> (forall c, shallow (ps_classes s) c) -> faithful build -> marks_observed build ->
  gendb_life rid build show false record_is_clean s g -> (forall j, orders_ok (o j)) -> torders_ok to ->
  inference_gendb lg rid o to late stop k n m g r r2 = Ok (g', r') -> gendb_life rid build show false record_is_clean s g' /\ same_cells s g g'.
Proof.
  intros rid build show cl s g lg o to late stop k n m r r2 g' r' WF Hon Hsh Hf HM Hg Ho Hto H.
  eapply (kept_inference rid build show cl s WF Hon Hsh Hf lg o to late stop m r2 HM Ho Hto) in H as (? & ? & _); done.
Qed.
Print Assumptions C65_inference_keeps_table.
(** At every moment the items of a value of a query field are the row and the entities that
    the references lead to from it along the field's path, as they are at that moment. *)
Theorem C65_table_vectors {V} : forall rid (build : hdecl -> t_rel V) show record_is_clean s g q fs v l w,
  well_formed s -> (record_is_clean = true -> record_queried_once s) -> (forall c, shallow (ps_classes s) c) -> faithful build ->
  gendb_life rid build show false record_is_clean s g -> pq_fields (ps_query s) !! q = Some (fs ++ [v]) -> fs <> [] \/ record_is_clean = false ->
  observed (g_hirm g) q l w -> exists i, path_vector (ps_classes s) (g_ents g) (pq_record (ps_query s)) fs i l /\ last l = Some i.
Proof.
  intros rid build show cl s g q fs v l w WF Hon Hsh Hf Hg Hq Hdir Hw.
  destruct (life_inv rid build cl s WF Hon Hsh Hf show g Hg) as (fuel & dm & refs & m & Hdm & Hrefs & Hm & Hi & Hs).
  assert (Qf s q) as HQ by (unfold Qf; eauto).
  destruct (field_queries s WF q HQ) as (fs' & ks & z & v' & Hqs & _ & Hq').
  rewrite Hq in Hq'. injection Hq' as E. apply app_inj_tail in E as [<- <-].
  eapply (field_path cl s fuel dm refs m WF Hon Hsh Hdm Hrefs Hm); [exact Hqs|]. apply (gi_data _ _ _ _ _ g Hi q l w Hw); [done|].
  intros [-> (u & Hu)]. rewrite Hq in Hu. injection Hu as Hu. destruct Hdir as [Hne|]; [|done]. apply Hne.
  destruct fs as [|a fs]; [done|]. injection Hu as _ Hu. by destruct fs.
Qed.
Print Assumptions C65_table_vectors.
(** A row has one value per field: no observation is duplicated. *)
Theorem C65_one_value {V} : forall rid (build : hdecl -> t_rel V) show record_is_clean s g q fs v i w w',
  well_formed s -> (record_is_clean = true -> record_queried_once s) -> (forall c, shallow (ps_classes s) c) -> faithful build ->
  gendb_life rid build show false record_is_clean s g -> pq_fields (ps_query s) !! q = Some (fs ++ [v]) -> fs <> [] \/ record_is_clean = false ->
  cell g q i w -> cell g q i w' -> w = w'.
Proof.
  intros rid build show cl s g q fs v i w w' WF Hon Hsh Hf Hg Hq Hdir (l & Hl & E) (l' & Hl' & E').
  destruct (C65_table_vectors rid build show cl s g q fs v l w WF Hon Hsh Hf Hg Hq Hdir Hl) as (j & Hj & Ej).
  destruct (C65_table_vectors rid build show cl s g q fs v l' w' WF Hon Hsh Hf Hg Hq Hdir Hl') as (j' & Hj' & Ej').
  assert (j = i) as -> by congruence. assert (j' = i) as -> by congruence. assert (l = l') as -> by by eapply path_vector_det.
  destruct Hl as (a & Ha & Hl). destruct Hl' as (a' & Ha' & Hl'). congruence.
Qed.
Print Assumptions C65_one_value.
(** Inference on the HIRM of a GenDB is the step of [gendb_reach] that C40, C53 and C54 allow
    for it. *)
Theorem C65_inference_is_GR_infer {V} : forall rid (build : hdecl -> t_rel V) show only_final record_is_clean s g lg o late k n r h' r',
  well_formed s -> (record_is_clean = true -> record_queried_once s) -> (forall c, shallow (ps_classes s) c) -> faithful build ->
  gendb_reach rid build show only_final record_is_clean s g -> (forall j, orders_ok (o j)) ->
  inference_hirm lg o late k n (g_hirm g) r = Ok (h', r') -> gendb_reach rid build show only_final record_is_clean s (g_set g (g_ents g) h').
Proof.
  intros rid build show of cl s g lg o late k n r h' r' WF Hon Hsh Hf Hg Ho H.
  destruct (reach_inv rid build show of cl s WF Hon Hsh Hf g Hg) as (fuel & dm & refs & m & Hdm & Hrefs & Hm & Hi & _). pose proof Hi as [_ _ _ _ HS HC _].
  apply GR_infer; [done|]. apply inference_keeps in H; [|done|exact (proj1 HC)]. by eapply keeps_same.
Qed.
Print Assumptions C65_inference_is_GR_infer.

(** * C66: what resampling one reference changes *)
(** The reference gets an entity that something already refers to or one above all of those;
    every other recorded reference is as it was; nothing is recorded about classes other than
    the one that has the field and those that the class referred to reaches, and only the
    assignments of the class referred to and of the classes that it reaches change. *)
Theorem C66_one_reference {V} : forall rid (build : hdecl -> t_rel V) show record_is_clean s g o to c f i r r2 g' r',
  well_formed s -> (record_is_clean = true -> record_queried_once s) -> (forall c, shallow (ps_classes s) c) -> faithful build ->
  gendb_life rid build show false record_is_clean s g -> orders_ok o -> torders_ok to -> rtc (references (ps_classes s)) (pq_record (ps_query s)) c ->
  transition_reference rid o to g c f i r r2 = Ok (g', r') -> exists k x x',
    refers (ps_classes s) c f k /\ recorded (g_ents g) c f i x /\ recorded (g_ents g') c f i x' /\
    ((exists c1 f1 i1, refers (ps_classes s) c1 f1 k /\ recorded (g_ents g) c1 f1 i1 x') \/
     (forall c1 f1 i1 y, refers (ps_classes s) c1 f1 k -> recorded (g_ents g) c1 f1 i1 y -> (y < x')%Z)) /\
    (forall c' f' i' y, (c', f', i') <> (c, f, i) -> recorded (g_ents g) c' f' i' y -> recorded (g_ents g') c' f' i' y) /\
    (forall d, d <> c -> ~ rtc (references (ps_classes s)) k d -> en_refs (g_ents g') !! d = en_refs (g_ents g) !! d) /\
    (forall d, d <> k -> ~ tc (references (ps_classes s)) k d -> en_crps (g_ents g') !! d = en_crps (g_ents g) !! d).
Proof.
  intros rid build show cl s g o to c f i r r2 g' r' WF Hon Hsh Hf Hg Ho Hto Hc H.
  destruct (life_move rid build show cl s WF Hon Hsh Hf o to g c f i r r2 g' r' Hg Ho Hto Hc H) as [m [_ _ _ _ _ He Hv]].
  destruct Hv as (k & x & x' & H1 & H2 & H3 & H4 & H5 & H6). exists k, x, x'. split_and!; done.
Qed.
Print Assumptions C66_one_reference.
(** The references and the entities' clusterings agree (as in C40) at every moment. *)
Theorem C66_bookkeeping {V} : forall rid (build : hdecl -> t_rel V) show record_is_clean s g,
  well_formed s -> (record_is_clean = true -> record_queried_once s) -> (forall c, shallow (ps_classes s) c) -> faithful build ->
  gendb_life rid build show false record_is_clean s g -> ents_agree rid (ps_classes s) (g_ents g).
Proof.
  intros rid build show cl s g WF Hon Hsh Hf Hg.
  destruct (life_inv rid build cl s WF Hon Hsh Hf show g Hg) as (fuel & dm & refs & m & Hdm & Hrefs & Hm & Hi & Hs). apply Hi.
Qed.
Print Assumptions C66_bookkeeping.
(** Inference on a GenDB leaves every entity that has a reference with one. *)
Theorem C66_inference_keeps_references {V} : forall rid (build : hdecl -> t_rel V) show record_is_clean s g lg o to late stop k n m r r2 g' r',
  well_formed s -> (record_is_clean = true -> record_queried_once s) -> (forall c, shallow (ps_classes s) c) -> faithful build -> marks_observed build ->
  gendb_life rid build show false record_is_clean s g -> (forall j, orders_ok (o j)) -> torders_ok to ->
  inference_gendb lg rid o to late stop k n m g r r2 = Ok (g', r') ->
  forall c f i x, recorded (g_ents g) c f i x -> exists x', recorded (g_ents g') c f i x'.
Proof.
  intros rid build show cl s g lg o to late stop k n m r r2 g' r' WF Hon Hsh Hf HM Hg Ho Hto H c f i x Hx.
  eapply (kept_inference rid build show cl s WF Hon Hsh Hf lg o to late stop m r2 HM Ho Hto) in H as (_ & _ & H); [|done]. eauto.
Qed.
Print Assumptions C66_inference_keeps_references.

(** ** Concrete states *)
(** The candidates, with the test for a lone customer made on the number of customers. *)
Definition gibbs_run (c : crp) (t : Z) : option (gmap Z R) :=
  if bool_decide (0 < crp_N c)%Z then
    match crp_tables c !! t, crp_max_table c with
    | Some cust, Ok mx =>
      if bool_decide (t = (mx + 1)%Z) then None
      else let dist := <[(mx + 1)%Z := crp_alpha c]> ((fun s : gset Z => INR (size s)) <$> crp_tables c) in
        if bool_decide (size cust = 1) then let dist' := <[t := crp_alpha c]> dist in (fun k => delete k dist') <$> max_key dist'
        else Some (<[t := (INR (size cust) - 1)%R]> dist)
    | _, _ => None
    end
  else None.
Lemma gibbs_run_ok c t d : gibbs_run c t = Some d -> crp_tables_weights_gibbs c t = Ok d.
Proof.
  unfold gibbs_run, crp_tables_weights_gibbs, crp_tables_weights. case_bool_decide as HN; [|done].
  destruct (crp_tables c !! t) as [cust|] eqn:Et; [|done]. destruct (crp_max_table c) as [mx| | | | |]; try done.
  case_bool_decide as Htm; [done|]. 
  rewrite (bool_decide_true (is_Some (Some cust))) by eauto. rewrite (bool_decide_false (crp_N c = 0%Z)) by lia. cbn [assert_ obind].
  rewrite lookup_insert_ne, lookup_fmap, Et by done. cbn [fmap option_fmap option_map at_ obind].
  case_bool_decide as Hs.
  - rewrite Hs. destruct (Req_EM_T (INR 1 - 1) 0) as [_|E]; [|exfalso; apply E; cbn; lra]. intros (k & -> & ->)%fmap_Some. done.
  - destruct (Req_EM_T (INR (size cust) - 1) 0) as [E|_]; [|by intros [= <-]]. exfalso. apply Hs. apply INR_eq. cbn. lra.
Qed.
Definition move_run {V} (rid : hash_fn) (o : orders) (to : torders) (g : gendb V) (c f : string) (i : Z) (r r2 : rng) : option (outcome (gendb V * rng)) :=
  match ps_classes (g_schema g) !! c ≫= fun cl => cl !! f with
  | Some (PClassVar rc) =>
    match reference_value (en_refs (g_ents g)) c f i with
    | Ok init =>
      crp ← en_crps (g_ents g) !! rc; dist ← gibbs_run crp init;
      Some (if bool_decide (size dist = 1) then Ok (g, r) else transition_among rid o to g c f i rc init dist r r2)
    | _ => None
    end
  | _ => None
  end.
Lemma move_run_ok {V} rid o to (g : gendb V) c f i r r2 out : move_run rid o to g c f i r r2 = Some out -> transition_reference rid o to g c f i r r2 = out.
Proof.
  unfold move_run, transition_reference. destruct (ps_classes (g_schema g) !! c) as [cl|]; [|done]. cbn [mbind option_bind at_ obind].
  destruct (cl !! f) as [[|rc]|]; [done| |done]. cbn [at_ obind]. destruct (reference_value _ _ _ _) as [init| | | | |]; try done.
  cbn [obind]. intros (crp & -> & (dist & Hd & [= <-])%bind_Some)%bind_Some. cbn [at_ obind]. by rewrite (gibbs_run_ok _ _ _ Hd).
Qed.
Fixpoint class_run {V} (fuel : nat) (rid : hash_fn) (o : orders) (to : torders) (r2 : rng) (s : gendb V * rng) (c : string) : outcome (gendb V * rng) :=
  match fuel with
  | 0 => OutOfFuel
  | S fuel' =>
    let* cl := at_ (ps_classes (g_schema s.1) !! c) in
    let* s := foldM (class_and_ancestors_step (class_run fuel' rid o to r2) cl) s (sorted_names cl) in
    let* m := at_ (en_refs (g_ents s.1) !! c) in
    foldM (fun s k => default Throws (move_run rid o to s.1 c k.1 k.2 s.2 r2)) s (to_refs to (dom m))
  end.
Lemma foldM_le {A S} (f f' : S -> A -> outcome S) l : (forall s a s', f s a = Ok s' -> f' s a = Ok s') -> forall s s', foldM f s l = Ok s' -> foldM f' s l = Ok s'.
Proof.
  intros Hf. induction l as [|a l IH]; intros s s' H; cbn [foldM] in *; [done|]. apply obind_Ok in H as (s1 & H1 & H).
  rewrite (Hf _ _ _ H1). cbn [obind]. by apply IH.
Qed.
Lemma class_run_ok {V} rid o to r2 fuel : forall (st : gendb V * rng) c st', class_run fuel rid o to r2 st c = Ok st' -> transition_class fuel rid o to r2 st c = Ok st'.
Proof.
  induction fuel as [|fuel IH]; intros st c st' H; cbn [class_run transition_class] in *; [done|].
  apply obind_Ok in H as (cl & -> & H). cbn [obind]. apply obind_Ok in H as (s1 & H1 & H). apply obind_Ok in H as (m & Hm & H).
  apply (foldM_le _ (class_and_ancestors_step (transition_class fuel rid o to r2) cl)) in H1 as ->.
  2: { intros z v z'. unfold class_and_ancestors_step. destruct (cl !! v) as [[]|]; auto. }
  cbn [obind]. rewrite Hm. cbn [obind]. revert H. apply foldM_le. intros z k z' Hz. destruct (move_run _ _ _ _ _ _ _ _ _) as [out|] eqn:E; [|done]. by apply move_run_ok in E as ->.
Qed.

(** Three classes in a chain; the attribute "age" is not queried. *)
Definition C67_schema : pschema :=
  PSchema
    {[ "School" := {[ "name" := PScalar "string" ∅ ]};
       "Physician" := {[ "degree" := PScalar "string" ∅; "age" := PScalar "real" ∅; "school" := PClassVar "School" ]};
       "Record" := {[ "physician" := PClassVar "Physician" ]} ]}
    (PQuery "Record" {[ "Degree" := ["physician"; "degree"]; "School" := ["physician"; "school"; "name"] ]}).
Definition some_torders : torders := Torders elements elements elements.
Lemma some_torders_ok : torders_ok some_torders.
Proof. done. Qed.
Lemma tally_marks : marks_observed tally_build.
Proof. by intros [o []]. Qed.
(** Rows with entities of their own ([true]) or with sampled ones. *)
Definition mixed_rows (rows : list (bool * Z * gmap string bool)) : outcome (gendb bool * rng) :=
  let* (g, r) := gendb_new 5 tally_build false false C67_schema [] in
  foldM (fun '(g, r) '(unique, i, vals) => gendb_incorporate wide_hash unique g i vals r) (g, r) rows.
Definition C67_life (g : gendb bool) : Prop := gendb_life wide_hash tally_build show_bool false false C67_schema g.
Lemma mixed_life rows g r : mixed_rows rows = Ok (g, r) -> C67_life g.
Proof.
  unfold mixed_rows. intros H. apply obind_Ok in H as ([g0 r0] & H0 & H). assert (C67_life g0) as Hg by by eapply GL_new. clear H0.
  revert g0 r0 Hg H. induction rows as [|[[u i] vals] rows IH]; intros g0 r0 Hg H; cbn [foldM] in H; [by injection H as <- <-|].
  apply obind_Ok in H as ([g1 r1] & H1 & H). eapply IH; [|exact H]. by eapply GL_row.
Qed.
Example C67_hyps : well_formed C67_schema /\ (forall c, shallow (ps_classes C67_schema) c) /\ faithful tally_build /\
  orders_ok some_orders /\ torders_ok some_torders /\ marks_observed tally_build /\
  rtc (references (ps_classes C67_schema)) "Record" "Physician".
Proof.
  split_and!; [apply is_well_formed_ok; vm_compute; reflexivity| |apply tally_faithful|apply some_orders_ok|apply some_torders_ok|apply tally_marks|].
  - intros c. destruct (decide (c ∈ map fst (map fst (all_refs (ps_classes C67_schema))))) as [Hc|Hc].
    + apply is_shallow_ok. assert (forallb (is_shallow (ps_classes C67_schema)) (map fst (map fst (all_refs (ps_classes C67_schema)))) = true) as H by (vm_compute; reflexivity).
      rewrite forallb_forall in H. apply H. by apply elem_of_list_In.
    + intros a b d [f Hf%refers_cases]. exfalso. apply Hc. change c with (fst (fst (c, f, a))). apply elem_of_list_In, in_map, in_map, elem_of_list_In, Hf.
  - apply rtc_once. exists "physician". eexists. split; vm_compute; reflexivity.
Qed.

Definition C65_rows : list (bool * Z * gmap string bool) :=
  [(true, 0%Z, {[ "Degree" := true; "School" := false ]}); (true, 1%Z, {[ "Degree" := false; "School" := true ]})].
Definition C67_rows : list (bool * Z * gmap string bool) :=
  [(false, 0%Z, {[ "Degree" := true; "School" := false ]}); (false, 1%Z, {[ "Degree" := false; "School" := true ]});
   (true, 2%Z, {[ "Degree" := false; "School" := true ]})].
Definition after_rows (rows : list (bool * Z * gmap string bool)) : gendb bool := (unwrap no_gendb (mixed_rows rows)).1.
Definition after_move (g : gendb bool) (c f : string) (i : Z) : gendb bool * rng :=
  unwrap no_gendb (default Throws (move_run wide_hash some_orders some_torders g c f i [] [])).
Lemma after_rows_life rows : is_ok (mixed_rows rows) = true -> C67_life (after_rows rows).
Proof. intros H. eapply (mixed_life rows _ (unwrap no_gendb (mixed_rows rows)).2). unfold after_rows. rewrite <- surjective_pairing. by apply unwrap_ok. Qed.
Lemma after_move_ok g c f i : is_ok (default Throws (move_run wide_hash some_orders some_torders g c f i [] [])) = true ->
  transition_reference wide_hash some_orders some_torders g c f i [] [] = Ok ((after_move g c f i).1, (after_move g c f i).2).
Proof.
  intros H. rewrite <- surjective_pairing. unfold after_move. destruct (move_run _ _ _ _ _ _ _ _ _) as [out|] eqn:E; [|done].
  apply move_run_ok in E. rewrite E. by apply unwrap_ok.
Qed.
(** Row 1 moves from a physician of its own to the one of row 0. *)
Example C65_met : exists g g' r', C67_life g /\ rtc (references (ps_classes C67_schema)) (pq_record (ps_query C67_schema)) "Record" /\
  transition_reference wide_hash some_orders some_torders g "Record" "physician" 1 [] [] = Ok (g', r') /\
  recorded (g_ents g) "Record" "physician" 1 1 /\ recorded (g_ents g') "Record" "physician" 1 0 /\
  observed (g_hirm g) "Degree" [1; 1; 1]%Z false /\ observed (g_hirm g') "Degree" [0; 0; 1]%Z false /\ ~ observed (g_hirm g') "Degree" [1; 1; 1]%Z false.
Proof.
  exists (after_rows C65_rows), (after_move (after_rows C65_rows) "Record" "physician" 1).1, (after_move (after_rows C65_rows) "Record" "physician" 1).2. split_and!.
  - apply after_rows_life. vm_compute. reflexivity.
  - reflexivity.
  - apply after_move_ok. vm_compute. reflexivity.
  - apply reference_ok. vm_compute. reflexivity.
  - apply reference_ok. vm_compute. reflexivity.
  - apply observation_ok. vm_compute. reflexivity.
  - apply observation_ok. vm_compute. reflexivity.
  - intros H%observed_qd. assert (observation (after_move (after_rows C65_rows) "Record" "physician" 1).1 "Degree" [1; 1; 1]%Z = None) as E by (vm_compute; reflexivity).
    unfold observation in E. unfold qd in H. destruct (hirm_lookup _ "Degree") as [a|]; [cbn in *; congruence|]. cbn in H. by rewrite lookup_empty in H.
Qed.
(** Row 1 leaves the physician it shares with row 0 for a new one, which gets a school of its own. *)
Example C66_new_met : exists g g' r', C67_life g /\
  transition_reference wide_hash some_orders some_torders g "Record" "physician" 1 [2; 2; 2; 2] [] = Ok (g', r') /\
  recorded (g_ents g) "Record" "physician" 0 0 /\ recorded (g_ents g) "Record" "physician" 1 0 /\
  recorded (g_ents g') "Record" "physician" 1 2 /\ recorded (g_ents g') "Physician" "school" 2 2 /\
  observed (g_hirm g) "School" [0; 0; 1]%Z true /\ observed (g_hirm g') "School" [2; 2; 1]%Z true /\ observed (g_hirm g') "Physician:age" [2; 2]%Z true.
Proof.
  pose (g := after_rows C67_rows). pose (out := default Throws (move_run wide_hash some_orders some_torders g "Record" "physician" 1 [2; 2; 2; 2] [])).
  pose (m := unwrap no_gendb out).
  assert (C67_life g) as F1 by (apply after_rows_life; vm_compute; reflexivity).
  assert (recorded (g_ents g) "Record" "physician" 0 0) as F2 by (apply reference_ok; vm_compute; reflexivity).
  assert (recorded (g_ents g) "Record" "physician" 1 0) as F3 by (apply reference_ok; vm_compute; reflexivity).
  assert (recorded (g_ents m.1) "Record" "physician" 1 2) as F4 by (apply reference_ok; vm_compute; reflexivity).
  assert (recorded (g_ents m.1) "Physician" "school" 2 2) as F5 by (apply reference_ok; vm_compute; reflexivity).
  assert (observed (g_hirm g) "School" [0; 0; 1]%Z true) as F6 by (apply observation_ok; vm_compute; reflexivity).
  assert (observed (g_hirm m.1) "School" [2; 2; 1]%Z true) as F7 by (apply observation_ok; vm_compute; reflexivity).
  assert (observed (g_hirm m.1) "Physician:age" [2; 2]%Z true) as F8 by (apply observation_ok; vm_compute; reflexivity).
  assert (is_ok out = true) as H by (vm_compute; reflexivity).
  assert (transition_reference wide_hash some_orders some_torders g "Record" "physician" 1 [2; 2; 2; 2] [] = Ok (m.1, m.2)) as F9.
  { rewrite <- surjective_pairing. subst m. subst out. destruct (move_run _ _ _ _ _ _ _ _ _) as [x|] eqn:E; [|discriminate H].
    apply move_run_ok in E. rewrite E. by apply unwrap_ok. }
  clearbody m g. exists g, m.1, m.2. exact (conj F1 (conj F9 (conj F2 (conj F3 (conj F4 (conj F5 (conj F6 (conj F7 F8)))))))).
Qed.
(** Two passes over all the references. *)
Definition C65_passes : outcome (gendb bool * rng) :=
  let* (g, r) := class_run 6 wide_hash some_orders some_torders [] (after_rows C65_rows, [0; 1; 0; 1]) "Record" in
  class_run 6 wide_hash some_orders some_torders [] (g, r) "Record".
Example C65_inference_met : exists g' r', C67_life (after_rows C65_rows) /\
  inference_gendb ln wide_hash (fun _ => some_orders) some_torders (fun _ _ => false) (fun _ => false) 0 2 0 (after_rows C65_rows) [0; 1; 0; 1] [] = Ok (g', r').
Proof.
  assert (is_ok C65_passes = true) as H by (vm_compute; reflexivity). apply (unwrap_ok no_gendb) in H. unfold C65_passes in H at 1.
  apply obind_Ok in H as ([g1 r1] & H1 & H2).
  assert (C67_life (after_rows C65_rows)) as HL by (apply after_rows_life; vm_compute; reflexivity).
  destruct C67_hyps as (W1 & W2 & W3 & W4 & W5 & W6 & _).
  assert (g_fuel (after_rows C65_rows) = 5) as F0 by (vm_compute; reflexivity).
  assert (g_fuel g1 = 5) as F1.
  { assert (match class_run 6 wide_hash some_orders some_torders [] (after_rows C65_rows, [0; 1; 0; 1]) "Record" with Ok z => g_fuel z.1 | _ => 0 end = 5) as E by (vm_compute; reflexivity).
    rewrite H1 in E. exact E. }
  apply class_run_ok in H1, H2.
  assert (C67_life g1) as HL1.
  { destruct (C65_class_keeps_table wide_hash tally_build show_bool false C67_schema _ _ _ _ _ _ _ _ _ W1 ltac:(done) W2 W3 HL W4 W5 ltac:(reflexivity) H1) as [HL1 _]. exact HL1. }
  exists (unwrap no_gendb C65_passes).1, (unwrap no_gendb C65_passes).2. split; [exact HL|]. rewrite <- surjective_pairing.
  cbn [inference_gendb inference_hirm obind]. rewrite F0.
  assert (forall g : gendb bool, g_set g (g_ents g) (g_hirm g) = g) as Eg by by intros [].
  rewrite Eg. rewrite (life_schema wide_hash tally_build show_bool false C67_schema W1 ltac:(done) W2 W3 _ HL).
  change (pq_record (ps_query C67_schema)) with "Record". match type of H1 with ?a = _ => match goal with |- context [transition_class 6 ?b ?c ?d ?e ?f ?g] => change (transition_class 6 b c d e f g) with a end end.
  rewrite H1. cbn [obind]. rewrite Eg, F1.
  rewrite (life_schema wide_hash tally_build show_bool false C67_schema W1 ltac:(done) W2 W3 _ HL1). change (pq_record (ps_query C67_schema)) with "Record".
  rewrite H2. cbn [obind]. by destruct (unwrap no_gendb C65_passes).
Qed.

(** * C67: what resampling leaves behind *)
(** The entities of the references of an entity are in its vector. *)
Lemma class_vector_has cs e c i l f k : class_vector cs e c i l -> refers cs c f k -> exists x, recorded e c f i x /\ x ∈ l.
Proof.
  intros H (cl & Hcl & Hf). inversion H as [? cl' ? fks ls Hcl' (_ & _ & Hfk) Hvs]; subst. assert (cl' = cl) as -> by congruence.
  apply Hfk in Hf. clear Hfk H Hcl Hcl'. induction Hvs as [|c i f1 k1 x l1 fks ls Hx Hv _ IH]; [by apply elem_of_nil in Hf|].
  apply elem_of_cons in Hf as [[= <- <-]|Hf].
  - exists x. split; [done|]. inversion Hv; subst. cbn [concat]. rewrite !elem_of_app. left. left. right. by apply elem_of_list_singleton.
  - destruct (IH Hf) as (y & Hy & Hin). exists y. split; [done|]. cbn [concat]. rewrite <- (assoc_L (++)). apply elem_of_app. by right.
Qed.
(** Resampling a reference can leave an entity to which nothing refers any more.  Its own
    references stay on record, and stay customers of the clusterings of the classes they
    refer to, although the code has a step to remove them. *)
Theorem C67_abandoned_refuted : exists rid (build : hdecl -> t_rel bool) show s g o to r r2 g' r' c f i k f' k' x y crp,
  well_formed s /\ (forall c, shallow (ps_classes s) c) /\ faithful build /\ marks_observed build /\ orders_ok o /\ torders_ok to /\
  gendb_life rid build show false false s g /\ rtc (references (ps_classes s)) (pq_record (ps_query s)) c /\
  transition_reference rid o to g c f i r r2 = Ok (g', r') /\
  refers (ps_classes s) c f k /\ refers (ps_classes s) k f' k' /\ recorded (g_ents g) c f i x /\
  (forall d u j, refers (ps_classes s) d u k -> ~ recorded (g_ents g') d u j x) /\
  recorded (g_ents g') k f' x y /\ en_crps (g_ents g') !! k' = Some crp /\ crp_assignments crp !! rid k f' x = Some y.
Proof.
  destruct C67_hyps as (W1 & W2 & W3 & W4 & W5 & W6 & W7). pose (g := after_rows C65_rows). pose (m := after_move g "Record" "physician" 1).
  assert (C67_life g) as F1 by (apply after_rows_life; vm_compute; reflexivity).
  assert (transition_reference wide_hash some_orders some_torders g "Record" "physician" 1 [] [] = Ok (m.1, m.2)) as F2 by (apply after_move_ok; vm_compute; reflexivity).
  assert (recorded (g_ents g) "Record" "physician" 1 1) as F3 by (apply reference_ok; vm_compute; reflexivity).
  assert (recorded (g_ents m.1) "Physician" "school" 1 1) as F4 by (apply reference_ok; vm_compute; reflexivity).
  assert (forallb (fun p => forallb (fun q => negb (bool_decide (p.2 = "Physician")) || negb (bool_decide (q.2 = 1%Z)))
    (map_to_list (default ∅ (en_refs (g_ents m.1) !! p.1.1)))) (all_refs (ps_classes C67_schema)) = true) as F5 by (vm_compute; reflexivity).
  assert (match en_crps (g_ents m.1) !! "School" with Some a => bool_decide (crp_assignments a !! wide_hash "Physician" "school" 1 = Some 1%Z) | None => false end = true) as F6 by (vm_compute; reflexivity).
  clearbody m g. destruct (en_crps (g_ents m.1) !! "School") as [crp|] eqn:Hcrp; [|discriminate F6]. apply bool_decide_eq_true in F6.
  assert (refers (ps_classes C67_schema) "Record" "physician" "Physician") as R1 by (eexists; split; vm_compute; reflexivity).
  assert (refers (ps_classes C67_schema) "Physician" "school" "School") as R2 by (eexists; split; vm_compute; reflexivity).
  assert (forall d u j, refers (ps_classes C67_schema) d u "Physician" -> ~ recorded (g_ents m.1) d u j 1) as R3.
  { intros d u j Hd%refers_cases%elem_of_list_In (mm & Hmm & Hx). rewrite forallb_forall in F5. specialize (F5 _ Hd). cbn [fst snd] in F5. rewrite Hmm in F5. cbn [default] in F5.
    rewrite forallb_forall in F5. apply elem_of_map_to_list, elem_of_list_In in Hx. specialize (F5 _ Hx). cbn [snd] in F5. by rewrite !bool_decide_true in F5. }
  assert (rtc (references (ps_classes C67_schema)) (pq_record (ps_query C67_schema)) "Record") as R4 by reflexivity.
  exists wide_hash, tally_build, show_bool, C67_schema, g, some_orders, some_torders, [], [], m.1, m.2, "Record", "physician", 1%Z, "Physician", "school", "School", 1%Z, 1%Z, crp.
  exact (conj W1 (conj W2 (conj W3 (conj W6 (conj W4 (conj W5 (conj F1 (conj R4 (conj F2 (conj R1 (conj R2 (conj F3 (conj R3 (conj F4 (conj Hcrp F6))))))))))))))).
Qed.
Print Assumptions C67_abandoned_refuted.
(** Only the values of queried attributes follow a reference: the value of an attribute that
    no field queries stays where it was, at items that are the vector of no entity, so that
    C53 does not survive resampling. *)
Theorem C67_stale_refuted : exists rid (build : hdecl -> t_rel bool) show s g o to r r2 g' r' c f i a l v j ps,
  well_formed s /\ (forall c, shallow (ps_classes s) c) /\ faithful build /\ marks_observed build /\ orders_ok o /\ torders_ok to /\
  gendb_life rid build show false false s g /\ rtc (references (ps_classes s)) (pq_record (ps_query s)) c /\
  transition_reference rid o to g c f i r r2 = Ok (g', r') /\ attribute (ps_classes s) c a j ps /\
  observed (g_hirm g) (c +:+ ":" +:+ a) l v /\ class_vector (ps_classes s) (g_ents g) c i l /\
  observed (g_hirm g') (c +:+ ":" +:+ a) l v /\ forall i', ~ class_vector (ps_classes s) (g_ents g') c i' l.
Proof.
  destruct C67_hyps as (W1 & W2 & W3 & W4 & W5 & W6 & W7). pose (g := after_rows C65_rows). pose (m := after_move g "Physician" "school" 1).
  assert (C67_life g) as F1 by (apply after_rows_life; vm_compute; reflexivity).
  assert (transition_reference wide_hash some_orders some_torders g "Physician" "school" 1 [] [] = Ok (m.1, m.2)) as F2 by (apply after_move_ok; vm_compute; reflexivity).
  assert (recorded (g_ents g) "Physician" "school" 1 1) as F3 by (apply reference_ok; vm_compute; reflexivity).
  assert (recorded (g_ents m.1) "Physician" "school" 1 0) as F4 by (apply reference_ok; vm_compute; reflexivity).
  assert (observed (g_hirm g) ("Physician" +:+ ":" +:+ "age") [1; 1]%Z true) as F5 by (apply observation_ok; vm_compute; reflexivity).
  assert (observed (g_hirm m.1) ("Physician" +:+ ":" +:+ "age") [1; 1]%Z true) as F6 by (apply observation_ok; vm_compute; reflexivity).
  clearbody m g.
  assert (refers (ps_classes C67_schema) "Physician" "school" "School") as R2 by (eexists; split; vm_compute; reflexivity).
  assert (attribute (ps_classes C67_schema) "Physician" "age" "real" ∅) as R1 by (eexists; split; vm_compute; reflexivity).
  assert (forall i', ~ class_vector (ps_classes C67_schema) (g_ents m.1) "Physician" i' [1; 1]%Z) as R3.
  { intros i' Hv. assert (i' = 1%Z) as -> by (pose proof (class_vector_last C67_schema _ _ _ _ Hv) as Hl; by injection Hl as <-).
    destruct (class_vector_has _ _ _ _ _ _ _ Hv R2) as (x & (mm & Hmm & Hx) & Hin). destruct F4 as (mm' & Hmm' & Hx').
    rewrite Hmm in Hmm'. injection Hmm' as <-. rewrite Hx in Hx'. injection Hx' as ->. set_unfold in Hin. lia. }
  assert (class_vector (ps_classes C67_schema) (g_ents g) "Physician" 1 [1; 1]%Z) as R4.
  { change [1; 1]%Z with (concat [[1%Z]] ++ [1%Z]). eapply (CV _ _ _ {[ "degree" := PScalar "string" ∅; "age" := PScalar "real" ∅; "school" := PClassVar "School" ]} _ [("school", "School")]); [vm_compute; reflexivity| |].
    - split_and!; [repeat constructor|apply NoDup_singleton|]. intros f k. rewrite elem_of_list_singleton. split.
      + intros [= -> ->]. vm_compute. reflexivity.
      + intros H. destruct (decide (f = "school")) as [->|Hf]; [vm_compute in H; by injection H as <-|].
        apply lookup_insert_Some in H as [[_ ?]|[_ H]]; [done|]. apply lookup_insert_Some in H as [[_ ?]|[_ H]]; [done|]. apply lookup_singleton_Some in H as [? _]. congruence.
    - econstructor; [exact F3| |constructor]. change [1%Z] with (concat [] ++ [1%Z]). eapply (CV _ _ _ {[ "name" := PScalar "string" ∅ ]} _ []); [vm_compute; reflexivity| |constructor].
      split_and!; [constructor|constructor|]. intros f k. split; [by intros ?%elem_of_nil|]. intros H. apply lookup_singleton_Some in H as [_ ?]. done. }
  exists wide_hash, tally_build, show_bool, C67_schema, g, some_orders, some_torders, [], [], m.1, m.2, "Physician", "school", 1%Z, "age", [1; 1]%Z, true, "real", ∅.
  exact (conj W1 (conj W2 (conj W3 (conj W6 (conj W4 (conj W5 (conj F1 (conj W7 (conj F2 (conj R1 (conj F5 (conj R4 (conj F6 R3))))))))))))).
Qed.
Print Assumptions C67_stale_refuted.
(** When two rows share an entity, the reference of that entity cannot be resampled as soon
    as it has two candidates: the value on which the observations of both rows depend is taken
    out with the first, so that the second has probability zero with every candidate, and the
    draw is from weights that are not numbers, whatever the random choices. *)
Theorem C67_shared_refuted : exists rid (build : hdecl -> t_rel bool) show s g o to c f i,
  well_formed s /\ (forall c, shallow (ps_classes s) c) /\ faithful build /\ marks_observed build /\ orders_ok o /\ torders_ok to /\
  gendb_life rid build show false false s g /\ rtc (references (ps_classes s)) (pq_record (ps_query s)) c /\
  forall r r2, transition_reference rid o to g c f i r r2 = UB.
Proof.
  destruct C67_hyps as (W1 & W2 & W3 & W4 & W5 & W6 & W7). pose (g := after_rows C67_rows).
  assert (C67_life g) as F1 by (apply after_rows_life; vm_compute; reflexivity).
  assert (forall r r2, transition_reference wide_hash some_orders some_torders g "Physician" "school" 0 r r2 = UB) as F2.
  { intros r r2. apply move_run_ok. vm_compute. reflexivity. }
  clearbody g. exists wide_hash, tally_build, show_bool, C67_schema, g, some_orders, some_torders, "Physician", "school", 0%Z.
  exact (conj W1 (conj W2 (conj W3 (conj W6 (conj W4 (conj W5 (conj F1 (conj W7 F2)))))))).
Qed.
Print Assumptions C67_shared_refuted.
