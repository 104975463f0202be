(** C29: loading observations into a model. *)
From Coq Require Import String Ascii.
From stdpp Require Import gmap strings list.
From Coq Require Import ZArith Lia.
From Verif Require Import M_base M_crp M_domain M_dist M_relation M_noisy M_irm M_hirm M_text M_io
  S_crp S_crp_state S_relation S_irm S_hirm S_io S_load P_base P_relation P_tally P_any P_irm P_irm_schema P_irm_history P_hirm P_hirm_move P_hirm_history P_hirm_ctor
  P_io P_load P_load_models T_irm T_hirm T_io.
Local Open Scope string_scope.
Local Open Scope nat_scope.

(** Whatever the history of the model, the observations, the iteration orders and the random
    draws: if loading returns, every observed relation has gained exactly its observations,
    each once; every unobserved relation has gained values for exactly the tuples the observed
    relations built on it need; nothing else has changed. *)
Theorem C29_effect {V} (parse : string -> string -> outcome V) schema r0 h0 r1 cs h o E obs r h' r' :
  schema_lawful schema -> hirm_new schema r0 = Ok (h0, r1) -> hirm_gentle_run h0 cs h -> schema_draws_keep (h_schema h) ->
  orders_ok o -> incorporate_observations hirm_ops parse o h E obs r = Ok (h', r') ->
  h_schema h' = h_schema h /\ h_crp h' = h_crp h /\ (exists a, hirm_holds h' a) /\
  exists eobs, encode_observations o (enc_f E) (fun rel => t_domains <$> h_schema h !! rel) obs = Ok eobs /\
    forall n, loaded parse eobs (base_in (h_schema h)) (base_arity (h_schema h)) n (hirm_data h !! n) (hirm_data h' !! n).
Proof.
  intros HL H0 Hrun HD Ho H. destruct (proj1 (hirm_new_spec schema r0 HL) _ _ H0) as [Hb0 Hs0].
  pose proof Hb0 as ([a0 Hh0] & _ & Hl0 & _). destruct (gentle_run_spec h0 cs h Hrun a0 Hh0 (built_closed schema h0 Hb0) Hl0) as (Hc & Hl & Hr).
  destruct (hirm_run_spec h0 cs h Hr a0 Hh0) as ([a Hh] & _).
  unfold incorporate_observations in H. apply obind_Ok in H as (eobs & He & H).
  destruct (incorporate_encoded_spec hirm_ops parse _ _ _ (hirm_ops_laws_consistent h HD) o eobs h r h' r' (base_in (h_schema h)) Ho) as (HI & Hld & _);
    [by split_and!; [exists a| |]| |done|].
  - intros n b. unfold listed, base_in. cbn [hirm_ops op_b2n]. rewrite (Hl b n). split.
    + intros (t & -> & Ht). done.
    + destruct (h_schema h !! n) as [t|]; [|done]. intros Ht. by exists t.
  - destruct HI as ([a' Hh'] & Hs' & Hcrp). pose proof Hs' as (Hsch & _). split_and!; [done|done|by exists a'|].
    exists eobs. split; [done|]. intros n. specialize (Hld n).
    by rewrite (hirm_data_lookup h a n Hh), (hirm_data_lookup h' a' n Hh').
Qed.
Print Assumptions C29_effect.

(** The same for a single IRM. *)
Lemma add_domains_keeps {V} (ir : irm V) name ds ir' : add_domains ir name ds = Ok ir' -> i_schema ir' = i_schema ir /\ i_b2n ir' = i_b2n ir.
Proof.
  unfold add_domains. revert ir. induction ds as [|d ds IH]; intros ir; cbn [foldM]; [by intros [= <-]|]. intros H.
  apply obind_Ok in H as (ir1 & H1 & H2). apply IH in H2 as [-> ->]. apply obind_Ok in H1 as (ir2 & H2 & H1).
  apply obind_Ok in H1 as (s & _ & H1). apply obind_Ok in H1 as (dm & _ & [= <-]). cbn. destruct (bool_decide _); [by injection H2 as <-|].
  by apply obind_Ok in H2 as ([] & _ & [= <-]).
Qed.
Lemma irm_add_b2n {V} (ir : irm V) name t ir' : irm_add_relation ir name t = Ok ir' ->
  name ∉ dom (i_schema ir) /\ i_schema ir' = <[name := t]> (i_schema ir) /\ i_b2n ir' = h_push_noisy (i_b2n ir) t name.
Proof.
  destruct t as [ds ob D sp|ds ob E sp b]; cbn [irm_add_relation]; intros H.
  - unfold irm_add_clean in H. apply obind_Ok in H as ([] & Hf & H). apply obind_Ok in H as (ir1 & Ha & H).
    apply obind_Ok in H as (rel & _ & [= <-]). apply add_domains_keeps in Ha as [Hs Hb]. cbn. rewrite Hs, Hb.
    unfold assert_fresh in Hf. apply obind_Ok in Hf as ([] & Hf%assert_Ok & _). by apply bool_decide_eq_true in Hf.
  - unfold irm_add_noisy in H. apply obind_Ok in H as ([] & Hf & H). apply obind_Ok in H as (ir1 & Ha & H). apply obind_Ok in H as ([] & _ & H).
    apply obind_Ok in H as (rel & _ & [= <-]). apply add_domains_keeps in Ha as [Hs Hb]. cbn. rewrite Hs, Hb.
    unfold assert_fresh in Hf. apply obind_Ok in Hf as ([] & Hf%assert_Ok & _). by apply bool_decide_eq_true in Hf.
Qed.
Lemma irm_new_listed {V} (schema : gmap string (t_rel V)) ir : schema_lawful schema -> irm_new schema = Ok ir ->
  forall b n, listed (i_b2n ir) b n <-> base_in schema n = Some b.
Proof.
  intros HL H. destruct (irm_new_holds schema ir HL H) as (_ & _ & Hs & _). rewrite <- Hs.
  unfold irm_new in H. apply obind_Ok in H as (ir1 & H & H1). apply obind_Ok in H1 as (_ & _ & [= <-]). clear Hs HL.
  revert H. set (P := fun ir : irm V => forall b n, listed (i_b2n ir) b n <-> base_in (i_schema ir) n = Some b).
  assert (P irm_empty) as H0.
  { intros b n. unfold listed, base_in. cbn. rewrite !lookup_empty. cbn. split; [|done]. by intros (ns & ? & _). }
  intros H. change (P ir1). revert H H0. generalize (@irm_empty V). generalize (sorted_names schema). intros l. induction l as [|x l IH]; intros ir H HP; cbn [foldM] in H.
  { by injection H as <-. }
  apply obind_Ok in H as (ir2 & H2 & H). apply obind_Ok in H2 as (t & _ & H2). apply irm_add_b2n in H2 as (Hn & Hs & Hb).
  apply (IH ir2 H). intros b n. unfold listed. rewrite Hb, push_listed, Hs. unfold base_in. destruct (decide (n = x)) as [->|Hne].
  - rewrite lookup_insert. cbn. split; [|by right]. intros [Hc|[_ ?]]; [|done]. apply HP in Hc. unfold base_in in Hc.
    apply not_elem_of_dom in Hn. by rewrite Hn in Hc.
  - rewrite lookup_insert_ne by done. rewrite <- (HP b n). split; [intros [?|[? _]]; done|by left].
Qed.
Theorem C29_effect_irm {V} (parse : string -> string -> outcome V) schema ir0 cs ir o E obs r ir' r' :
  schema_lawful schema -> irm_new schema = Ok ir0 -> Forall irm_call_ok cs -> foldM irm_do ir0 cs = Ok ir ->
  orders_ok o -> incorporate_observations irm_ops parse o ir E obs r = Ok (ir', r') ->
  exists eobs, encode_observations o (enc_f E) (fun rel => t_domains <$> schema !! rel) obs = Ok eobs /\
    forall n, loaded parse eobs (base_in schema) (base_arity schema) n (any_data <$> i_rels ir !! n) (any_data <$> i_rels ir' !! n).
Proof.
  intros HL H0 Hok Hf Ho H. destruct (irm_new_tight schema ir0 HL H0) as (A0 & Hh0 & Ht0 & Hs0 & Hd0).
  destruct (irm_history _ cs ir0 A0 ir Hh0 Ht0 Hok Hf) as (A & HA & _ & (Hs & _ & Hb & _) & _). rewrite Hs0 in Hs.
  unfold incorporate_observations in H. apply obind_Ok in H as (eobs & He & H). cbn [irm_ops op_domains] in He. rewrite Hs in He.
  pose proof (irm_holds_declared _ ir A HA) as Hdecl. rewrite Hs in Hdecl.
  destruct (incorporate_encoded_spec irm_ops parse _ _ _ (irm_ops_laws schema) o eobs ir r ir' r' (base_in schema) Ho) as (HI & Hld & _); [done| |done|].
  - intros n b. cbn [irm_ops op_b2n]. rewrite Hb. by apply irm_new_listed.
  - exists eobs. by split.
Qed.
Print Assumptions C29_effect_irm.

(** Whether a noisy relation nobody is built on lacks observations is found before anything
    is changed: loading then exits, in every order. *)
Theorem C29_unobserved_leaf_exits {V} (parse : string -> string -> outcome V) (h : hirm V) o eobs r :
  orders_ok o -> hirm_listed_exactly h ->
  (exists n, is_Some (base_in (h_schema h) n) /\ eobs !! n = None /\ forall k, base_in (h_schema h) k <> Some n) ->
  (forall b ns, h_b2n h !! b = Some ns -> ns <> []) ->
  incorporate_encoded hirm_ops parse o h eobs r = Exits.
Proof.
  intros Ho Hl (n & [b Hb] & Hn & Hk) Hne. unfold incorporate_encoded. cbn [hirm_ops op_b2n].
  destruct (noisy_to_base_exits o (h_b2n h) eobs Ho) as [[->|[n2b H]] Hiff]; [done|].
  assert (listed (h_b2n h) b n) as Hln. { apply Hl. unfold base_in in Hb. destruct (h_schema h !! n) as [t|]; [by exists t|done]. }
  destruct (proj1 Hiff (ex_intro _ n2b H) n b Hln) as [Hd|Hd]; [|by apply elem_of_dom in Hd as [? ?]; congruence].
  apply elem_of_dom in Hd as [ns Hns]. destruct ns as [|k ns]; [by destruct (Hne n [])|].
  destruct (proj1 (Hl n k)) as (t & Ht & Htb); [exists (k :: ns); split; [done|by left]|]. destruct (Hk k). unfold base_in. by rewrite Ht.
Qed.
Print Assumptions C29_unobserved_leaf_exits.

(** If no observed relation is the base of another one: the loader asks for exactly the
    observations of each observed relation to be incorporated, each once and in order, in
    every iteration order and whatever the model does ([logged X] is [X] with a list of the
    incorporations made). *)
Theorem C29_each_once {M V} (X : model_ops M V) (parse : string -> string -> outcome V) o m eobs r m' log r' :
  orders_ok o -> (forall b, is_Some (eobs !! b) -> forall n, ~ listed (op_b2n X m) b n) ->
  incorporate_encoded (logged X) parse o (m, []) eobs r = Ok ((m', log), r') ->
  forall n l, eobs !! n = Some l -> exists vs, Forall2 (fun x v => parse n x.2 = Ok v) l vs /\ calls_for log n = zip (map fst l) vs.
Proof.
  intros Ho Hb H n l Hl. unfold incorporate_encoded in H. cbn [logged op_b2n fst] in H. apply obind_Ok in H as (n2b & Hn2b & H).
  apply obind_Ok in H as ([[[[m1 log1] ri] comp] r1] & Hloop & [= <- <- <-]).
  assert (forall n b, n2b !! n = Some b -> eobs !! b = None) as Hbase.
  { intros k b Hkb. destruct (n2b_loop_spec _ _ _ _ _ Hn2b) as (A1 & _). destruct (A1 k b Hkb) as [?|[_ Hlb]]; [by rewrite lookup_empty in *|].
    destruct (eobs !! b) eqn:E; [|done]. destruct (Hb b) with k; [by rewrite E|done]. }
  edestruct (loop_log X parse o eobs n2b Hbase) as [_ Hlog]; [by apply (o_names_nodup o (dom eobs) Ho)| |exact Hloop|].
  - intros k Hk. apply in_o_names, elem_of_dom in Hk; [|done]. split; [done|apply not_elem_of_empty].
  - apply (Hlog n l); [|done]. apply in_o_names; [done|]. apply elem_of_dom. eauto.
Qed.
Print Assumptions C29_each_once.
Theorem C29_log_is_transparent {M V} (X : model_ops M V) (parse : string -> string -> outcome V) o m log eobs r :
  (let* (ml, r') := incorporate_encoded (logged X) parse o (m, log) eobs r in Ok (ml.1, r')) = incorporate_encoded X parse o m eobs r.
Proof. apply logged_transparent. Qed.
Print Assumptions C29_log_is_transparent.

(** Without that restriction: with observations of a base and of the relation built on it,
    one iteration order loads them, another tries to incorporate the observations of the
    base a second time, which fails an assertion. *)
Definition C29_parse (_ s : string) : outcome bool := Ok (bool_decide (s = "1")).
Definition C29_both : encoded := {[ "r" := [([1; 7]%Z, "1")]; "a" := [([1; 7]%Z, "0")] ]}.
Definition outcome_tag {A} (x : outcome A) : nat := match x with Ok _ => 0 | AssertFail => 1 | _ => 2 end.
Theorem C29_each_once_refuted : exists o o' h0 r0, orders_ok o /\ orders_ok o' /\ schema_lawful C15_schema /\
  hirm_new C15_schema [0; 1] = Ok (h0, r0) /\
  (exists h, incorporate_encoded hirm_ops C29_parse o h0 C29_both [] = Ok h) /\
  incorporate_encoded hirm_ops C29_parse o' h0 C29_both [] = AssertFail.
Proof.
  assert ((let* (h0, _) := hirm_new C15_schema [0; 1] in
    Ok (outcome_tag (incorporate_encoded hirm_ops C29_parse rev_orders h0 C29_both []),
        outcome_tag (incorporate_encoded hirm_ops C29_parse some_orders h0 C29_both []))) = Ok (0, 1)) as H by by_compute.
  apply obind_Ok in H as ([h0 r0] & H0 & [= H1 H2]).
  exists rev_orders, some_orders, h0, r0. split_and!; [apply rev_orders_ok|apply some_orders_ok|apply C15_schema_lawful|exact H0| |].
  - destruct (incorporate_encoded _ _ rev_orders _ _ _) as [h| | | | |]; try discriminate H1. by exists h.
  - destruct (incorporate_encoded _ _ some_orders _ _ _); try discriminate H2. reflexivity.
Qed.
Print Assumptions C29_each_once_refuted.

(** Observations of the noisy relation alone load in both orders and give the base a value. *)
Definition C29_noisy : observations := {[ "a" := [(["x"; "u"], "0"); (["y"; "u"], "1")] ]}.
Example C29_example : exists E h0 r0 h r h' r', schema_lawful C15_schema /\ hirm_new C15_schema [0; 1] = Ok (h0, r0) /\
  schema_draws_keep C15_schema /\
  calculate_encoding some_orders (t_domains <$> C15_schema) C29_noisy = Ok E /\
  incorporate_observations hirm_ops C29_parse some_orders h0 E C29_noisy [] = Ok (h, r) /\
  incorporate_observations hirm_ops C29_parse rev_orders h0 E C29_noisy [] = Ok (h', r') /\
  (size <$> hirm_data h !! "r") = Some 2.
Proof.
  assert ((let* (h0, r0) := hirm_new C15_schema [0; 1] in
    let* E := calculate_encoding some_orders (t_domains <$> C15_schema) C29_noisy in
    let* (h, r) := incorporate_observations hirm_ops C29_parse some_orders h0 E C29_noisy [] in
    let* (h', r') := incorporate_observations hirm_ops C29_parse rev_orders h0 E C29_noisy [] in
    Ok (size <$> hirm_data h !! "r")) = Ok (Some 2)) as H by by_compute.
  apply obind_Ok in H as ([h0 r0] & H0 & H). apply obind_Ok in H as (E & HE & H). apply obind_Ok in H as ([h r] & H1 & H).
  apply obind_Ok in H as ([h' r'] & H2 & [= H]). exists E, h0, r0, h, r, h', r'. split_and!; try assumption; [apply C15_schema_lawful|].
  intros name t. unfold C15_schema. intros [[_ <-]|[_ [_ <-]%lookup_singleton_Some]]%lookup_insert_Some; [|done].
  intros s r1 v s' r2. cbn. by intros [= _ <- _].
Qed.
(** Observations of the base alone: the noisy relation is not observed. *)
Example C29_exits_example : exists h0 r0, hirm_new C15_schema [0; 1] = Ok (h0, r0) /\
  incorporate_encoded hirm_ops C29_parse some_orders h0 {[ "r" := [([1; 7]%Z, "1")] ]} [] = Exits.
Proof.
  assert ((let* (h0, _) := hirm_new C15_schema [0; 1] in
    Ok (match incorporate_encoded hirm_ops C29_parse some_orders h0 {[ "r" := [([1; 7]%Z, "1")] ]} [] with Exits => true | _ => false end)) = Ok true) as H by by_compute.
  apply obind_Ok in H as ([h0 r0] & H0 & [= H1]). exists h0, r0. split; [exact H0|].
  destruct (incorporate_encoded _ _ _ _ _ _); solve [discriminate H1|reflexivity].
Qed.
