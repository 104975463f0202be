(** Proofs about the HIRM schema of a PClean schema. *)
From Coq Require Import String Ascii.
From stdpp Require Import gmap strings list sorting relations.
From Coq Require Import Lia.
From Verif Require Import M_base M_irm M_text M_schema M_pclean_io M_gendb M_gendb_rels S_gendb S_gendb_rels
  P_base P_gendb P_gendb_links.
Local Open Scope nat_scope.

(** * Names *)
Lemma no_colon_cons c s : no_colon (String c s) <-> c <> ":"%char /\ no_colon s.
Proof. unfold no_colon. cbn [list_ascii_of_string]. rewrite not_elem_of_cons. naive_solver. Qed.
Lemma colon_split a : forall a' x y, no_colon a -> no_colon a' ->
  a +:+ String ":" x = a' +:+ String ":" y -> a = a' /\ x = y.
Proof.
  induction a as [|c a IH]; intros a' x y Ha Ha' H; destruct a' as [|c' a']; simpl in H.
  - by injection H.
  - injection H as <- _. apply no_colon_cons in Ha' as [? _]. done.
  - injection H as -> _. apply no_colon_cons in Ha as [? _]. done.
  - injection H as -> H. apply no_colon_cons in Ha as [_ Ha]. apply no_colon_cons in Ha' as [_ Ha'].
    destruct (IH a' x y Ha Ha' H) as [-> ->]. done.
Qed.
Lemma colon_not a f x : no_colon f -> a +:+ String ":" x <> f.
Proof.
  revert f. induction a as [|c a IH]; intros f Hf <-; simpl in Hf; apply no_colon_cons in Hf as [H1 H2]; [done|]. by eapply IH.
Qed.
Definition lower_name (k f : string) : string := k +:+ "::" +:+ f.
Lemma attr_inj c v c' v' : no_colon c -> no_colon c' -> attr_name c v = attr_name c' v' -> c = c' /\ v = v'.
Proof. unfold attr_name. simpl. intros. by apply colon_split. Qed.
Lemma attr_not_field c v f : no_colon f -> attr_name c v <> f.
Proof. unfold attr_name. simpl. apply colon_not. Qed.
Lemma attr_not_lower c v k f : no_colon c -> no_colon v -> no_colon k -> attr_name c v <> lower_name k f.
Proof.
  unfold attr_name, lower_name. simpl. intros Hc Hv Hk H. apply colon_split in H as [_ ->]; [|done|done].
  by apply no_colon_cons in Hv as [? _].
Qed.
Lemma lower_not_field k f f' : no_colon f' -> lower_name k f <> f'.
Proof. unfold lower_name. simpl. apply colon_not. Qed.
Lemma lower_inj k f k' f' : no_colon k -> no_colon k' -> lower_name k f = lower_name k' f' -> k = k' /\ f = f'.
Proof. unfold lower_name. simpl. intros Hk Hk' H. apply colon_split in H as [-> H]; [|done|done]. by injection H. Qed.

(** * Joint names *)
Lemma joint_split j d e t : joint_meaning j = Some (d, e, t) -> exists dn en, joint_parts j = Some (dn, en) /\
  (forall ps, dist_spec_new (txt dn) ps = Ok (DistSpec d t ps)) /\ (forall ps, emis_spec_new (txt en) ps = Ok (EmisSpec e t ps)).
Proof.
  intros H.
  assert (j ∈ ["bool"; "categorical"; "real"; "string"; "stringcat"; "typo_int"; "typo_nat"; "typo_real"]%string) as Hj.
  { unfold joint_meaning in H. repeat (case_match; try discriminate); repeat (apply elem_of_list_here || apply elem_of_list_further). }
  repeat (apply elem_of_cons in Hj as [->|Hj]); [..|by apply elem_of_nil in Hj]; injection H as <- <- <-;
    eexists _, _; (split; [vm_compute; reflexivity|split; intros ps; reflexivity]).
Qed.
Lemma distribution_relation_Ok j ps ds d e t : joint_meaning j = Some (d, e, t) ->
  distribution_relation j ps ds = Ok (false, Clean ds (DistSpec d t ps)).
Proof. intros (dn & en & Hp & Hd & _)%joint_split. unfold distribution_relation. by rewrite Hp, Hd. Qed.
Lemma emission_relation_Ok j ps ds base o d e t : joint_meaning j = Some (d, e, t) ->
  emission_relation j ps ds base o = Ok (o, NoisyOf ds (EmisSpec e t ps) base).
Proof. intros (dn & en & Hp & _ & He)%joint_split. unfold emission_relation. by rewrite Hp, He. Qed.

(** * Paths *)
Lemma path_goes_lengths cs c fs ks z : path_goes cs c fs ks z -> length fs = length ks.
Proof. induction 1; simpl; lia. Qed.
Lemma path_goes_det cs c fs ks z ks' z' : path_goes cs c fs ks z -> path_goes cs c fs ks' z' -> ks' = ks /\ z' = z.
Proof.
  intros H. revert ks' z'. induction H as [c|c f k fs ks z Hr Hp IH]; intros ks' z' H'; inversion H' as [|? ? k' ? ? ? Hr' Hp']; subst; [done|].
  assert (k' = k) as -> by (eapply refers_fun; eassumption). by destruct (IH _ _ Hp') as [-> ->].
Qed.
Lemma path_goes_declared cs c fs ks z : closed_schema cs -> is_Some (cs !! c) -> path_goes cs c fs ks z ->
  is_Some (cs !! z) /\ forall k, k ∈ ks -> is_Some (cs !! k).
Proof.
  intros Hclo Hc H. induction H as [c|c f k fs ks z Hr Hp IH].
  - split; [done|]. intros k Hk. by apply elem_of_nil in Hk.
  - destruct IH as [Hz Hk]; [by eapply Hclo|]. split; [done|]. intros k' [->|Hk']%elem_of_cons; [done|]. by apply Hk.
Qed.
Lemma path_goes_reach cs c fs ks z k : path_goes cs c fs ks z -> k ∈ (ks ++ [z]) -> rtc (references cs) c k.
Proof.
  intros H. revert k. induction H as [c|c f k' fs ks z Hr Hp IH]; intros k Hk.
  - simpl in Hk. apply elem_of_list_singleton in Hk as ->. done.
  - simpl in Hk. apply elem_of_cons in Hk as [->|Hk]; [done|]. eapply rtc_l; [by exists f|]. by apply IH.
Qed.
Lemma path_goes_nodup cs c fs ks z : (forall c, ~ tc (references cs) c c) -> path_goes cs c fs ks z -> NoDup (ks ++ [z]).
Proof.
  intros Hac H. induction H as [c|c f k fs ks z Hr Hp IH]; simpl.
  - apply NoDup_singleton.
  - apply NoDup_cons. split; [|done]. intros Hin. apply (Hac c).
    eapply tc_rtc_r; [apply tc_once; by exists f|]. by eapply path_goes_reach.
Qed.
Lemma walk_path_Ok cs c cl fs ks z v x clz : closed_schema cs -> cs !! c = Some cl -> path_goes cs c fs ks z -> cs !! z = Some clz -> clz !! v = Some x ->
  exists ks', walk_path cs cl (fs ++ [v]) = Ok (ks', fs, (v, x)) /\ c :: ks' = ks ++ [z].
Proof.
  intros Hclo Hc H. revert cl Hc. induction H as [c|c f k fs ks z Hr Hp IH]; intros cl Hc Hz Hv.
  - simplify_eq. exists []. simpl. by rewrite Hv.
  - destruct Hr as (cl' & Hc' & Hf). assert (cl' = cl) as -> by congruence.
    destruct (Hclo c f k) as [clk Hk]; [by exists cl|]. destruct (IH clk Hk Hz Hv) as (ks' & Hw & He).
    exists (k :: ks'). split; [|by rewrite He].
    change ((f :: fs) ++ [v]) with (f :: (fs ++ [v])). cbn [walk_path].
    destruct (fs ++ [v]) as [|a l] eqn:E; [by destruct fs|]. rewrite <- E in *. rewrite Hf, Hk. simpl. rewrite Hw. done.
Qed.

(** * Links along a path *)
Fixpoint path_links (off : nat) (vs : list string) : links :=
  match vs with
  | [] => ∅
  | v :: vs => <[off := {[v := off - 1]}]> (path_links (S off) vs)
  end.
Lemma path_links_lookup vs : forall off i x, path_links off vs !! i = Some x <->
  exists p v, vs !! p = Some v /\ i = off + p /\ x = {[v := i - 1]}.
Proof.
  induction vs as [|v vs IH]; intros off i x; cbn [path_links].
  - rewrite lookup_empty. split; [done|]. by intros (p & w & H & _).
  - rewrite lookup_insert_Some, IH. split.
    + intros [[<- <-]|[Hne (p & w & Hp & -> & ->)]].
      * exists 0, v. split_and!; [done|lia|done].
      * exists (S p), w. split_and!; [done|lia|done].
    + intros (p & w & Hp & -> & ->). destruct p as [|p]; simpl in Hp.
      * injection Hp as ->. left. rewrite Nat.add_0_r. done.
      * right. split; [lia|]. exists p, w. split_and!; [done|lia|done].
Qed.
Lemma path_links_snoc off vs v :
  path_links off (vs ++ [v]) = path_links off vs ∪ {[off + length vs := {[v := off + length vs - 1]}]}.
Proof.
  apply map_eq. intros i. apply option_eq. intros x. rewrite path_links_lookup, lookup_union_Some_raw, path_links_lookup.
  rewrite eq_None_not_Some. split.
  - intros (p & w & Hp & -> & ->). apply lookup_app_Some in Hp as [Hp|[Hl Hp]].
    + left. eauto.
    + right. apply list_lookup_singleton_Some in Hp as [Hp ->]. assert (p = length vs) as -> by lia. split.
      * intros [y Hy]. apply path_links_lookup in Hy as (p & w' & Hp' & He & _). apply lookup_lt_Some in Hp'. lia.
      * apply lookup_singleton.
  - intros [(p & w & Hp & -> & ->)|[_ H]].
    + exists p, w. split_and!; [by apply lookup_app_l_Some|done|done].
    + apply lookup_singleton_Some in H as [<- <-]. exists (length vs), v. split_and!; [|done|done].
      rewrite lookup_app_r by lia. by rewrite Nat.sub_diag.
Qed.

Section Chain.
Variables (f joint base : string) (ps : gmap string string) (d : dist_enum) (e : emis_enum) (t : obs_type)
  (m0 : made) (dz : list string).
Hypothesis Hj : joint_meaning joint = Some (d, e, t).
Notation R0 := (default ∅ (md_refs m0 !! base)).
Hypothesis Hsmall : forall i, is_Some (R0 !! i) -> i < length dz.

Definition lname (i : nat) (k : string) : string := if bool_decide (i = 0) then f else lower_name k f.
Definition first_name (i0 : nat) (pairs : list (string * string)) : string :=
  match pairs with [] => base | (k, _) :: _ => lname i0 k end.
Definition chain_decl (i : nat) (k : string) (p2 : list (string * string)) : hdecl :=
  (bool_decide (i = 0), NoisyOf (dz ++ reverse p2.*1 ++ [k]) (EmisSpec e t ps) (first_name (S i) p2)).
Definition chain_links (vs : list string) : links := R0 ∪ path_links (length dz) vs.

Lemma chain_loop (pairs : list (string * string)) : forall i0, no_colon f ->
  NoDup pairs.*1 -> (forall k, k ∈ pairs.*1 -> no_colon k) ->
  (forall k, k ∈ pairs.*1 -> md_rels m0 !! lower_name k f = None /\ md_refs m0 !! lower_name k f = None) ->
  md_rels m0 !! f = None -> md_refs m0 !! f = None ->
  exists st, foldM (chain_step f joint ps) (ChainState m0 base dz ∅) (reverse (zip (seq i0 (length pairs)) pairs)) = Ok st /\
    cn_domains st = dz ++ reverse pairs.*1 /\ cn_refs st = ∅ /\ cn_prev st = first_name i0 pairs /\
    (forall n x, md_rels (cn_made st) !! n = Some x <-> md_rels m0 !! n = Some x \/
       exists p1 k v p2, pairs = p1 ++ (k, v) :: p2 /\ n = lname (i0 + length p1) k /\ x = chain_decl (i0 + length p1) k p2) /\
    (forall n x, md_refs (cn_made st) !! n = Some x <-> md_refs m0 !! n = Some x \/
       exists p1 k v p2, pairs = p1 ++ (k, v) :: p2 /\ n = lname (i0 + length p1) k /\ x = chain_links (reverse p2.*2 ++ [v])).
Proof.
  induction pairs as [|[k v] pairs IH]; intros i0 Hf Hnd Hnc Hfr Hf1 Hf2.
  - simpl. exists (ChainState m0 base dz ∅). cbn. rewrite app_nil_r. split_and!; try done.
    + intros n x. split; [by left|]. intros [?|(p1 & ? & ? & ? & Hp & _)]; [done|]. by destruct p1.
    + intros n x. split; [by left|]. intros [?|(p1 & ? & ? & ? & Hp & _)]; [done|]. by destruct p1.
  - cbn [fmap list_fmap fst] in *. apply NoDup_cons in Hnd as [Hnk Hnd].
    destruct (IH (S i0)) as (st & Hst & Hd & Hr & Hp & H1 & H2); try done.
    { intros; apply Hnc. by apply elem_of_list_further. }
    { intros; apply Hfr. by apply elem_of_list_further. }
    assert (no_colon k) as Hk by (apply Hnc, elem_of_list_here).
    cbn [length seq]. change (zip (i0 :: seq (S i0) (length pairs)) ((k, v) :: pairs)) with ((i0, (k, v)) :: zip (seq (S i0) (length pairs)) pairs).
    rewrite reverse_cons, foldM_app. rewrite Hst. cbn [obind foldM].
    unfold chain_step. rewrite (emission_relation_Ok _ _ _ _ _ _ _ _ Hj). cbn [obind].
    rewrite Hd, Hr. rewrite Hp.
    assert (forall p1 k2 v2 p2, pairs = p1 ++ (k2, v2) :: p2 -> lname i0 k <> lname (S i0 + length p1) k2) as Hfresh.
    { intros p1 k2 v2 p2 Hpp. unfold lname. rewrite (bool_decide_eq_false_2 (S i0 + length p1 = 0)) by lia.
      assert (k2 ∈ pairs.*1) as Hk2. { rewrite Hpp, fmap_app. simpl. set_solver. }
      case_bool_decide.
      - intros E. by apply (lower_not_field k2 f f).
      - intros E. apply lower_inj in E as [-> _]; [done|done|]. apply Hnc. by apply elem_of_list_further. }
    assert (md_rels m0 !! lname i0 k = None /\ md_refs m0 !! lname i0 k = None) as [Hn1 Hn2].
    { unfold lname. case_bool_decide; [done|]. apply Hfr. apply elem_of_list_here. }
    assert (md_refs (cn_made st) !! lname i0 k = None) as Hn3.
    { apply eq_None_not_Some. intros [x Hx]. apply H2 in Hx as [Hx|(p1 & k2 & v2 & p2 & Hpp & Hn & _)]; [congruence|].
      by apply (Hfresh p1 k2 v2 p2). }
    set (name := if bool_decide (i0 = 0) then f else _). change name with (lname i0 k). clear name.
    set (dest := default ∅ _).
    assert (dest = chain_links (reverse pairs.*2)) as Hdest.
    { unfold dest, chain_links. destruct pairs as [|[k2 v2] p2]; simpl first_name.
      - assert (forall x, md_refs (cn_made st) !! base = Some x <-> md_refs m0 !! base = Some x) as Hbb.
        { intros x. rewrite H2. split; [|by left]. intros [?|(p1 & ? & ? & ? & Hpp & _)]; [done|]. by destruct p1. }
        assert (md_refs (cn_made st) !! base = md_refs m0 !! base) as -> by (apply option_eq; exact Hbb).
        cbn. rewrite (right_id_L ∅ (∪)). destruct (md_refs m0 !! base); [done|]. by rewrite Hn3.
      - assert (md_refs (cn_made st) !! lname (S i0) k2 = Some (chain_links (reverse p2.*2 ++ [v2]))) as E.
        { apply H2. right. exists [], k2, v2, p2. simpl. rewrite Nat.add_0_r. done. }
        rewrite E. simpl. unfold chain_links. cbn [fmap list_fmap snd]. by rewrite reverse_cons. }
    assert (forall i, is_Some (dest !! i) -> i < length dz + length pairs) as Hdd.
    { intros i [x Hx]. rewrite Hdest in Hx. unfold chain_links in Hx. apply lookup_union_Some_raw in Hx as [Hx|[_ Hx]].
      - assert (i < length dz) by (apply Hsmall; eauto). lia.
      - apply path_links_lookup in Hx as (p & w & Hw & -> & _). apply lookup_lt_Some in Hw.
        rewrite reverse_length, fmap_length in Hw. lia. }
    rewrite !app_length, !reverse_length, !fmap_length. simpl length.
    replace (length dz + length pairs + 1 - 1) with (length dz + length pairs) by lia.
    replace (length dz + length pairs + 1 - 2) with (length dz + length pairs - 1) by lia.
    assert (put_link (length dz + length pairs) v (length dz + length pairs - 1) ∅ =
      {[length dz + length pairs := {[v := length dz + length pairs - 1]}]}) as -> by done.
    eexists. split; [reflexivity|]. cbn [cn_domains cn_refs cn_prev cn_made md_rels md_refs first_name].
    split_and!.
    + rewrite reverse_cons, <- app_assoc. done.
    + apply map_empty. intros i. apply map_filter_lookup_None. right. intros x Hx%lookup_singleton_Some Hin.
      destruct Hx as [<- <-]. simpl in Hin. apply elem_of_dom in Hin. apply Hdd in Hin. lia.
    + done.
    + intros n x. rewrite lookup_insert_Some, H1. split.
      * intros [[<- <-]|[Hne [Hx|(p1 & k2 & v2 & p2 & -> & -> & ->)]]].
        -- right. exists [], k, v, pairs. simpl. rewrite Nat.add_0_r. split_and!; [done|done|].
           unfold chain_decl. by rewrite <- app_assoc.
        -- by left.
        -- right. exists ((k, v) :: p1), k2, v2, p2. simpl. rewrite Nat.add_succ_r. done.
      * intros [Hx|(p1 & k2 & v2 & p2 & Hpp & -> & ->)].
        -- right. split; [|by left]. intros <-. congruence.
        -- destruct p1 as [|[k1 v1] p1]; simpl in Hpp.
           ++ injection Hpp as -> -> ->. left. simpl. rewrite Nat.add_0_r. split; [done|]. unfold chain_decl. by rewrite <- app_assoc.
           ++ injection Hpp as -> -> ->. right. simpl. rewrite Nat.add_succ_r. split; [by eapply Hfresh|].
              right. exists p1, k2, v2, p2. done.
    + intros n x. rewrite lookup_insert_Some, H2.
      assert (dest ∪ {[length dz + length pairs := {[v := length dz + length pairs - 1]}]} = chain_links (reverse pairs.*2 ++ [v])) as Hnew.
      { rewrite Hdest. unfold chain_links. rewrite path_links_snoc, reverse_length, fmap_length. by rewrite (assoc_L (∪)). }
      split.
      * intros [[<- <-]|[Hne [Hx|(p1 & k2 & v2 & p2 & -> & -> & ->)]]].
        -- right. exists [], k, v, pairs. simpl. rewrite Nat.add_0_r. split_and!; [done|done|done].
        -- by left.
        -- right. exists ((k, v) :: p1), k2, v2, p2. simpl. rewrite Nat.add_succ_r. done.
      * intros [Hx|(p1 & k2 & v2 & p2 & Hpp & -> & ->)].
        -- right. split; [|by left]. intros <-. congruence.
        -- destruct p1 as [|[k1 v1] p1]; simpl in Hpp.
           ++ injection Hpp as -> -> ->. left. simpl. rewrite Nat.add_0_r. done.
           ++ injection Hpp as -> -> ->. right. simpl. rewrite Nat.add_succ_r. split; [by eapply Hfresh|].
              right. exists p1, k2, v2, p2. done.
Qed.
End Chain.

Section Make.
Variables (only_final record_is_clean : bool) (s : pschema) (dm : gmap string (list string)) (refs : gmap string links).
Notation cs := (ps_classes s).
Notation rc := (pq_record (ps_query s)).
Notation fields := (pq_fields (ps_query s)).
Notation dom_of := (doms dm).
Hypothesis WF : well_formed s.
Hypothesis Hac : forall c, ~ tc (references cs) c c.
Hypothesis Hsmall : forall c r i, refs !! c = Some r -> is_Some (r !! i) -> i < length (dom_of c).

Lemma attribute_fun c v j ps j' ps' : attribute cs c v j ps -> attribute cs c v j' ps' -> j' = j /\ ps' = ps.
Proof. intros (cl & H1 & H2) (cl' & H1' & H2'). rewrite H1 in H1'. injection H1' as <-. rewrite H2 in H2'. by injection H2' as -> ->. Qed.
Lemma attribute_class c v j ps : attribute cs c v j ps -> no_colon c.
Proof. intros (cl & H & _). eapply wf_classes; eauto. Qed.
Lemma attribute_var c v j ps : attribute cs c v j ps -> no_colon v.
Proof. intros (cl & H & H'). eapply wf_vars; eauto. Qed.

(** * The attributes *)
Definition attrs_inv (D : string -> string -> Prop) (m : made) : Prop :=
  (forall n x, md_rels m !! n = Some x <-> exists c v j ps d e t, D c v /\ attribute cs c v j ps /\
     joint_meaning j = Some (d, e, t) /\ n = attr_name c v /\ x = (false, Clean (dom_of c) (DistSpec d t ps))) /\
  (forall n r, md_refs m !! n = Some r <-> exists c v j ps, D c v /\ attribute cs c v j ps /\ n = attr_name c v /\ refs !! c = Some r).
Lemma attrs_inv_iff (D D' : string -> string -> Prop) m : (forall c v j ps, attribute cs c v j ps -> D c v <-> D' c v) ->
  attrs_inv D m -> attrs_inv D' m.
Proof.
  intros HD [H1 H2]. split.
  - intros n x. rewrite H1. split; intros (c & v & j & ps & d & e & t & HDc & Ha & Hr); exists c, v, j, ps, d, e, t;
      (split; [by eapply HD|done]).
  - intros n x. rewrite H2. split; intros (c & v & j & ps & HDc & Ha & Hr); exists c, v, j, ps; (split; [by eapply HD|done]).
Qed.
Lemma attr_step_Ok c cl v D m : cs !! c = Some cl -> attrs_inv D m ->
  exists m', attr_step dm refs c cl m v = Ok m' /\ attrs_inv (fun c' v' => D c' v' \/ (c' = c /\ v' = v)) m'.
Proof.
  intros Hc HI. unfold attr_step. destruct (cl !! v) as [[j ps|k]|] eqn:Hv.
  - destruct HI as [H1 H2]. assert (attribute cs c v j ps) as Ha by by exists cl.
    destruct (wf_joints s WF c v j ps Ha) as [[[d e] t] Hj].
    rewrite (distribution_relation_Ok _ _ _ _ _ _ Hj). cbn [obind]. eexists. split; [reflexivity|].
    pose proof (attribute_class _ _ _ _ Ha) as Hnc. split; cbn [md_rels md_refs].
    + intros n x. rewrite lookup_insert_Some, H1. split.
      * intros [[<- <-]|[Hne (c' & v' & j' & ps' & d' & e' & t' & HD & Ha' & Hj' & -> & ->)]].
        -- exists c, v, j, ps, d, e, t. split_and!; try done. by right.
        -- exists c', v', j', ps', d', e', t'. split_and!; try done. by left.
      * intros (c' & v' & j' & ps' & d' & e' & t' & HD & Ha' & Hj' & -> & ->).
        destruct (decide (attr_name c v = attr_name c' v')) as [E|Hne].
        -- apply attr_inj in E as [<- <-]; [|done|by eapply attribute_class].
           destruct (attribute_fun _ _ _ _ _ _ Ha Ha') as [-> ->]. left. split; [done|]. unfold doms. congruence.
        -- right. split; [done|]. exists c', v', j', ps', d', e', t'. split_and!; try done.
           destruct HD as [HD|[-> ->]]; done.
    + intros n x. destruct (refs !! c) as [r|] eqn:Hr.
      * rewrite lookup_insert_Some, H2. split.
        -- intros [[<- <-]|[Hne (c' & v' & j' & ps' & HD & Ha' & -> & Hr')]].
           ++ exists c, v, j, ps. split_and!; try done. by right.
           ++ exists c', v', j', ps'. split_and!; try done. by left.
        -- intros (c' & v' & j' & ps' & HD & Ha' & -> & Hr').
           destruct (decide (attr_name c v = attr_name c' v')) as [E|Hne].
           ++ apply attr_inj in E as [<- <-]; [|done|by eapply attribute_class]. left. split; [done|congruence].
           ++ right. split; [done|]. exists c', v', j', ps'. split_and!; try done.
              destruct HD as [HD|[-> ->]]; done.
      * rewrite H2. split; intros (c' & v' & j' & ps' & HD & Ha' & -> & Hr'); exists c', v', j', ps'; (split_and!; try done).
        -- by left.
        -- destruct HD as [HD|[-> ->]]; [done|congruence].
  - exists m. split; [done|]. eapply attrs_inv_iff; [|exact HI]. intros c' v' j ps (cl' & Hc' & Hv'). split; [by left|].
    intros [?|[-> ->]]; [done|]. congruence.
  - exists m. split; [done|]. eapply attrs_inv_iff; [|exact HI]. intros c' v' j ps (cl' & Hc' & Hv'). split; [by left|].
    intros [?|[-> ->]]; [done|]. congruence.
Qed.
Lemma attr_loop c cl l : forall D m, cs !! c = Some cl -> attrs_inv D m ->
  exists m', foldM (attr_step dm refs c cl) m l = Ok m' /\ attrs_inv (fun c' v' => D c' v' \/ (c' = c /\ v' ∈ l)) m'.
Proof.
  induction l as [|v l IH]; intros D m Hc HI; cbn [foldM].
  - exists m. split; [done|]. eapply attrs_inv_iff; [|exact HI]. intros c' v' _ _ _. split; [by left|]. intros [?|[_ H]]; [done|]. by apply elem_of_nil in H.
  - destruct (attr_step_Ok c cl v D m Hc HI) as (m1 & E & HI1). rewrite E. cbn [obind].
    destruct (IH _ _ Hc HI1) as (m' & E' & HI'). exists m'. split; [done|]. eapply attrs_inv_iff; [|exact HI'].
    intros c' v' _ _ _. cbn beta. rewrite elem_of_cons. tauto.
Qed.
Lemma class_loop l : forall D m, (forall c, c ∈ l -> is_Some (cs !! c)) -> attrs_inv D m ->
  exists m', foldM (class_step cs dm refs) m l = Ok m' /\ attrs_inv (fun c' v' => D c' v' \/ c' ∈ l) m'.
Proof.
  induction l as [|c l IH]; intros D m Hl HI; cbn [foldM].
  - exists m. split; [done|]. eapply attrs_inv_iff; [|exact HI]. intros c' v' _ _ _. split; [by left|]. intros [?|H]; [done|]. by apply elem_of_nil in H.
  - destruct (Hl c) as [cl Hc]; [apply elem_of_list_here|]. unfold class_step at 1. rewrite Hc. cbn [default from_option id].
    destruct (attr_loop c cl (sorted_names cl) D m Hc HI) as (m1 & E & HI1). rewrite E. cbn [obind].
    destruct (IH (fun c' v' => D c' v' \/ c' = c) m1) as (m' & E' & HI').
    { intros c' Hc'. apply Hl. by apply elem_of_list_further. }
    { eapply attrs_inv_iff; [|exact HI1]. intros c' v' j ps (cl' & Hc' & Hv'). cbn beta. split; [tauto|].
      intros [?| ->]; [by left|]. right. split; [done|]. apply elem_of_sorted_names. rewrite Hc in Hc'. injection Hc' as <-. eauto. }
    exists m'. split; [done|]. eapply attrs_inv_iff; [|exact HI']. intros c' v' _ _ _. cbn beta. rewrite elem_of_cons. tauto.
Qed.
Lemma attrs_Ok : exists m, foldM (class_step cs dm refs) (Made ∅ ∅) (sorted_names cs) = Ok m /\ attrs_inv (fun _ _ => True) m.
Proof.
  destruct (class_loop (sorted_names cs) (fun _ _ => False) (Made ∅ ∅)) as (m & E & HI).
  - intros c. by rewrite elem_of_sorted_names.
  - split; cbn; intros n x; rewrite lookup_empty; (split; [done|]).
    + by intros (? & ? & ? & ? & ? & ? & ? & [] & _).
    + by intros (? & ? & ? & ? & [] & _).
  - exists m. split; [done|]. eapply attrs_inv_iff; [|exact HI]. intros c v j ps (cl & Hc & _). split; [done|]. intros _. right.
    apply elem_of_sorted_names. eauto.
Qed.

(** * The query fields *)
Inductive field_rel (f : string) : string -> hdecl -> Prop :=
| F_record_clean v j ps d e t : record_is_clean = true -> fields !! f = Some [v] ->
    attribute cs rc v j ps -> joint_meaning j = Some (d, e, t) ->
    field_rel f f (true, Clean (dom_of rc) (DistSpec d t ps))
| F_record_noisy v j ps d e t : record_is_clean = false -> fields !! f = Some [v] ->
    attribute cs rc v j ps -> joint_meaning j = Some (d, e, t) ->
    field_rel f f (true, NoisyOf (dom_of rc) (EmisSpec e t ps) (attr_name rc v))
| F_final fs ks z v j ps d e t : only_final = true -> queries s f fs ks z v -> fs <> [] ->
    attribute cs z v j ps -> joint_meaning j = Some (d, e, t) ->
    field_rel f f (true, NoisyOf (dom_of z ++ reverse ks) (EmisSpec e t ps) (attr_name z v))
| F_chain fs k1 k k2 z v j ps d e t : only_final = false -> queries s f fs (k1 ++ k :: k2) z v ->
    attribute cs z v j ps -> joint_meaning j = Some (d, e, t) ->
    field_rel f (match k1 with [] => f | _ => lower_name k f end)
      (match k1 with [] => true | _ => false end,
       NoisyOf (dom_of z ++ reverse k2 ++ [k]) (EmisSpec e t ps)
         (match k2 with [] => attr_name z v | k' :: _ => lower_name k' f end)).
Definition renamed (D : string -> Prop) (c v : string) : Prop :=
  record_is_clean = true /\ c = rc /\ exists f, D f /\ fields !! f = Some [v].
Definition attr_rel (D : string -> Prop) (n : string) (x : hdecl) : Prop :=
  exists c v j ps d e t, attribute cs c v j ps /\ joint_meaning j = Some (d, e, t) /\ ~ renamed D c v /\
    n = attr_name c v /\ x = (false, Clean (dom_of c) (DistSpec d t ps)).
Lemma relation_of_split D n x : relation_of only_final record_is_clean s dm D n x <-> attr_rel D n x \/ exists f, D f /\ field_rel f n x.
Proof.
  split.
  - intros H. destruct H.
    + left. exists c, v, j, ps, d, e, t. done.
    + right. exists f. split; [done|]. by econstructor.
    + right. exists f. split; [done|]. by econstructor.
    + right. exists f. split; [done|]. by econstructor.
    + right. exists f. split; [done|]. by eapply (F_chain f fs k1 k k2).
  - intros [(c & v & j & ps & d & e & t & Ha & Hj & Hr & -> & ->)|(f & HD & H)].
    + by eapply R_attribute.
    + destruct H.
      * by eapply R_record_clean.
      * by eapply R_record_noisy.
      * by eapply R_final.
      * by eapply (R_chain _ _ s dm D f fs k1 k k2).
Qed.

Inductive field_link (f : string) : string -> links -> Prop :=
| FL_record_noisy v r : record_is_clean = false -> fields !! f = Some [v] -> refs !! rc = Some r -> field_link f f r
| FL_final fs ks z v : only_final = true -> queries s f fs ks z v -> fs <> [] ->
    field_link f f (match refs !! z with Some r => r | None => path_links (length (dom_of z)) (reverse fs) end)
| FL_chain f1 v0 f2 k1 k k2 z v : only_final = false -> queries s f (f1 ++ v0 :: f2) (k1 ++ k :: k2) z v -> length f1 = length k1 ->
    field_link f (match k1 with [] => f | _ => lower_name k f end)
      (default ∅ (refs !! z) ∪ path_links (length (dom_of z)) (reverse f2 ++ [v0])).
Definition attr_link (n : string) (r : links) : Prop :=
  exists c v j ps, attribute cs c v j ps /\ n = attr_name c v /\ refs !! c = Some r.

Definition fields_inv (D : string -> Prop) (m : made) : Prop :=
  (forall n x, md_rels m !! n = Some x <-> attr_rel D n x \/ exists f, D f /\ field_rel f n x) /\
  (forall n r, md_refs m !! n = Some r <-> attr_link n r \/ exists f, D f /\ field_link f n r).

(** The names that belong to a field. *)
Definition field_name (f n : string) : Prop := n = f \/ exists k, no_colon k /\ n = lower_name k f.
Lemma queries_facts f fs ks z v : queries s f fs ks z v -> no_colon f /\ (forall k, k ∈ ks -> no_colon k) /\ NoDup ks /\
  length fs = length ks /\ (exists cl, cs !! rc = Some cl).
Proof.
  intros [Hf Hp]. split_and!.
  - eapply wf_fields; eauto.
  - intros k Hk. eapply wf_classes; [done|]. destruct (path_goes_declared _ _ _ _ _ (wf_closed s WF) (wf_record s WF) Hp) as [_ H]. by apply H.
  - apply path_goes_nodup in Hp; [|exact Hac]. by apply NoDup_app in Hp as [? _].
  - by eapply path_goes_lengths.
  - apply (wf_record s WF).
Qed.
Lemma field_rel_name f n x : field_rel f n x -> field_name f n.
Proof.
  intros H. destruct H; try by left. destruct k1 as [|k0 k1]; [by left|]. right. exists k. split; [|done].
  destruct (queries_facts _ _ _ _ _ H0) as (_ & Hk & _). apply Hk. set_solver.
Qed.
Lemma field_link_name f n x : field_link f n x -> field_name f n.
Proof.
  intros H. destruct H; try by left. destruct k1 as [|k0 k1]; [by left|]. right. exists k. split; [|done].
  destruct (queries_facts _ _ _ _ _ H0) as (_ & Hk & _). apply Hk. set_solver.
Qed.
Lemma field_name_inj f f' n : no_colon f -> no_colon f' -> field_name f n -> field_name f' n -> f = f'.
Proof.
  intros Hf Hf' [->|(k & Hk & ->)] [E|(k' & Hk' & E)].
  - done.
  - symmetry in E. by apply lower_not_field in E.
  - by apply lower_not_field in E.
  - by apply lower_inj in E as [_ ->].
Qed.
Lemma field_name_not_attr f n c v j ps : no_colon f -> attribute cs c v j ps -> field_name f n -> n <> attr_name c v.
Proof.
  intros Hf Ha [->|(k & Hk & ->)] E; symmetry in E.
  - by apply attr_not_field in E.
  - apply attr_not_lower in E; [done|..]; [by eapply attribute_class|by eapply attribute_var|done].
Qed.
Lemma field_declared f : is_Some (fields !! f) -> no_colon f.
Proof. apply (wf_fields s WF). Qed.
Lemma field_rel_declared f n x : field_rel f n x -> no_colon f.
Proof. destruct 1 as [|? ? ? ? ? ? ? H|? ? ? ? ? ? ? ? ? ? [H _]|? ? ? ? ? ? ? ? ? ? ? ? [H _]]; eapply field_declared; eauto. Qed.
Lemma field_link_declared f n x : field_link f n x -> no_colon f.
Proof. destruct 1 as [|? ? ? ? ? [H _]|? ? ? ? ? ? ? ? ? [H _]]; eapply field_declared; eauto. Qed.

(** Nothing of a new field is there yet. *)
Lemma fresh_rels D m f n : fields_inv D m -> ~ D f -> no_colon f -> field_name f n -> md_rels m !! n = None.
Proof.
  intros [H1 _] HD Hf Hn. apply eq_None_not_Some. intros [x Hx]. apply H1 in Hx as [(c & v & j & ps & d & e & t & Ha & _ & _ & -> & _)|(f' & HD' & Hx)].
  - by eapply field_name_not_attr.
  - apply HD. replace f with f'; [done|]. eapply field_name_inj; [by eapply field_rel_declared|done|by eapply field_rel_name|done].
Qed.
Lemma fresh_refs D m f n : fields_inv D m -> ~ D f -> no_colon f -> field_name f n -> md_refs m !! n = None.
Proof.
  intros [_ H2] HD Hf Hn. apply eq_None_not_Some. intros [x Hx]. apply H2 in Hx as [(c & v & j & ps & Ha & -> & _)|(f' & HD' & Hx)].
  - by eapply field_name_not_attr.
  - apply HD. replace f with f'; [done|]. eapply field_name_inj; [by eapply field_link_declared|done|by eapply field_link_name|done].
Qed.
Lemma attr_refs D m c v j ps : fields_inv D m -> attribute cs c v j ps -> md_refs m !! attr_name c v = refs !! c.
Proof.
  intros [_ H2] Ha. apply option_eq. intros r. rewrite H2. split.
  - intros [(c' & v' & j' & ps' & Ha' & E & Hr)|(f & HD & Hl)].
    + apply attr_inj in E as [-> ->]; [done|by eapply attribute_class..].
    + exfalso. eapply field_name_not_attr; [by eapply field_link_declared|exact Ha|by eapply field_link_name|done].
  - intros Hr. left. by exists c, v, j, ps.
Qed.

(** Adding a field: what is needed of the new maps. *)
Lemma fields_inv_add D m m' f : fields_inv D m -> ~ D f -> 
  (forall n x, md_rels m' !! n = Some x <-> (md_rels m !! n = Some x /\ ~ (record_is_clean = true /\ exists v, fields !! f = Some [v] /\ n = attr_name rc v)) \/ field_rel f n x) ->
  (forall n r, md_refs m' !! n = Some r <-> md_refs m !! n = Some r \/ field_link f n r) ->
  fields_inv (fun f' => D f' \/ f' = f) m'.
Proof.
  intros [I1 I2] HD H1 H2. split.
  - intros n x. rewrite H1, I1. split.
    + intros [[[(c & v & j & ps & d & e & t & Ha & Hj & Hr & -> & ->)|(f' & HD' & Hf')] Hn]|Hf].
      * left. exists c, v, j, ps, d, e, t. split_and!; try done. intros (Hc & -> & f' & [HD'| ->] & Hf').
        -- apply Hr. split_and!; try done. by exists f'.
        -- apply Hn. split; [done|]. by exists v.
      * right. exists f'. split; [by left|done].
      * right. exists f. split; [by right|done].
    + intros [(c & v & j & ps & d & e & t & Ha & Hj & Hr & -> & ->)|(f' & [HD'| ->] & Hf')].
      * left. split.
        -- left. exists c, v, j, ps, d, e, t. split_and!; try done. intros (Hc & -> & f' & HD' & Hf'). apply Hr. split_and!; try done.
           exists f'. split; [by left|done].
        -- intros (Hc & v' & Hf & E). apply Hr. destruct (wf_record s WF) as [rcl Hrcl].
           apply attr_inj in E as [-> ->]; [|by eapply attribute_class|by eapply wf_classes].
           split_and!; try done. exists f. split; [by right|done].
      * left. split; [right; by exists f'|]. intros (Hc & v' & Hf & ->). 
        destruct (wf_paths s WF f _ Hf) as (fs & ks & z & v & j & ps & [Hq Hp] & Ha).
        rewrite Hf in Hq. injection Hq as Hq. destruct fs as [|? [|? ?]]; [|done..]. injection Hq as ->. inversion Hp; subst.
        eapply field_name_not_attr; [by eapply field_rel_declared|exact Ha|by eapply field_rel_name|done].
      * by right.
  - intros n r. rewrite H2, I2. split.
    + intros [[?|(f' & HD' & Hf')]|Hf]; [by left|..]; right; [exists f'|exists f]; (split; [|done]); [by left|by right].
    + intros [?|(f' & [HD'| ->] & Hf')]; [left; by left|left; right; by exists f'|by right].
Qed.

Lemma final_loop (pairs : list (string * string)) : forall i0 dz r0, (forall i, length dz <= i -> r0 !! i = None) ->
  foldl final_step (dz, r0) (reverse (zip (seq i0 (length pairs)) pairs)) =
    ((dz ++ reverse pairs.*1)%list, r0 ∪ path_links (length dz) (reverse pairs.*2)).
Proof.
  induction pairs as [|[k v] pairs IH]; intros i0 dz r0 Hr.
  - simpl. by rewrite app_nil_r, (right_id_L ∅ (∪)).
  - cbn [length seq]. change (zip (i0 :: seq (S i0) (length pairs)) ((k, v) :: pairs)) with ((i0, (k, v)) :: zip (seq (S i0) (length pairs)) pairs).
    rewrite reverse_cons, foldl_app, IH by done. cbn [foldl final_step fmap list_fmap fst snd].
    rewrite !reverse_cons, path_links_snoc, (assoc_L (++)). f_equal.
    rewrite !app_length, !reverse_length, !fmap_length. simpl length.
    replace (length dz + length pairs + 1 - 1) with (length dz + length pairs) by lia.
    replace (length dz + length pairs + 1 - 2) with (length dz + length pairs - 1) by lia.
    assert ((r0 ∪ path_links (length dz) (reverse pairs.*2)) !! (length dz + length pairs) = None) as Hn.
    { apply lookup_union_None. split; [apply Hr; lia|]. apply eq_None_not_Some. intros [x Hx].
      apply path_links_lookup in Hx as (p & w & Hw & He & _). apply lookup_lt_Some in Hw. rewrite reverse_length, fmap_length in Hw. lia. }
    unfold put_link. rewrite Hn. cbn [default from_option]. rewrite insert_empty, (assoc_L (∪)).
    apply map_eq. intros i. destruct (decide (i = length dz + length pairs)) as [->|Hne].
    + rewrite lookup_insert. symmetry. apply lookup_union_Some_raw. right. split; [done|]. apply lookup_singleton.
    + rewrite lookup_insert_ne by done. symmetry. rewrite lookup_union_l; [done|]. by apply lookup_singleton_ne.
Qed.
Lemma queries_det f fs ks z v fs' ks' z' v' : queries s f fs ks z v -> queries s f fs' ks' z' v' ->
  fs' = fs /\ ks' = ks /\ z' = z /\ v' = v.
Proof.
  intros [H1 H2] [H1' H2']. rewrite H1 in H1'. injection H1' as E. apply app_inj_tail in E as [<- <-].
  by destruct (path_goes_det _ _ _ _ _ _ _ H2 H2') as [-> ->].
Qed.
Lemma zip_take {A B} (l : list A) (z : list A) (m : list B) : length m = length l -> zip (l ++ z) m = zip l m.
Proof. revert m. induction l as [|x l IH]; intros [|y m] H; simpl in *; try done; [by destruct z|]. f_equal. apply IH. lia. Qed.

Lemma queryfield_Ok D m f path rcl : (record_is_clean = true -> record_queried_once s) -> fields_inv D m -> ~ D f ->
  cs !! rc = Some rcl -> fields !! f = Some path ->
  exists m', queryfield_step only_final record_is_clean cs dm refs rc rcl m (f, path) = Ok m' /\ fields_inv (fun f' => D f' \/ f' = f) m'.
Proof.
  intros Honce HI HD Hrc Hf. pose proof (field_declared f (ex_intro _ _ Hf)) as Hnc.
  destruct (wf_paths s WF f path Hf) as (fs & ks & z & v & j & ps & Hq & Ha).
  destruct (queries_facts _ _ _ _ _ Hq) as (_ & Hks & Hnd & Hlen & _).
  pose proof Hq as [Hq1 Hq2]. rewrite Hf in Hq1. injection Hq1 as ->.
  destruct (wf_joints s WF z v j ps Ha) as [[[d e] t] Hj]. pose proof Ha as (clz & Hz & Hv).
  destruct (walk_path_Ok cs rc rcl fs ks z v (PScalar j ps) clz (wf_closed s WF) Hrc Hq2 Hz Hv) as (ks' & Hw & Hks').
  assert (default rc (last ks') = z) as Hlast.
  { destruct ks as [|k0 ks]; simpl in Hks'; injection Hks' as E1 E2; subst; [done|]. by rewrite last_snoc. }
  unfold queryfield_step. rewrite Hw. cbn [obind]. rewrite Hlast. cbn [fst snd as_scalar obind]. rewrite Hks'.
  destruct fs as [|f1 fs].
  - (* an attribute of the record class *)
    assert (ks = [] /\ z = rc) as [-> ->] by (by inversion Hq2). clear Hlast Hks' Hw.
    rewrite bool_decide_eq_true_2 by done.
    destruct record_is_clean eqn:Hclean.
    + assert (md_rels m !! attr_name rc v = Some (false, Clean (dom_of rc) (DistSpec d t ps))) as Hb.
      { apply HI. left. exists rc, v, j, ps, d, e, t. split_and!; try done. intros (_ & _ & f' & HD' & Hf').
        apply HD. replace f with f'; [done|]. by eapply Honce. }
      rewrite Hb. cbn [at_ obind]. eexists. split; [reflexivity|].
      eapply (fields_inv_add D m); [done|done|..]; cbn [md_rels md_refs].
      * intros n x. rewrite lookup_delete_Some, lookup_insert_Some. split.
        -- intros [Hne [[<- <-]|[Hne' Hx]]].
           ++ right. by eapply F_record_clean.
           ++ left. split; [done|]. intros (_ & v' & Hf' & ->). rewrite Hf in Hf'. by injection Hf' as ->.
        -- intros [[Hx Hn]|Hx].
           ++ split; [intros <-; apply Hn; split; [done|]; by exists v|]. right. split; [|done]. intros <-.
              rewrite (fresh_rels D m f f) in Hx; try done. by left.
           ++ pose proof (field_rel_name _ _ _ Hx) as Hnm. split.
              { intros E. symmetry in E. by eapply (field_name_not_attr f n). }
              left. inversion Hx as [v' j' ps' d' e' t' Hc' Hf' Ha' Hj'|? ? ? ? ? ? Hc'|? ? ? ? ? ? ? ? ? ? [Hq1' _] Hfs|? ? ? ? ? ? ? ? ? ? ? ? [Hq1' Hp']]; subst.
              ** rewrite Hf in Hf'. injection Hf' as <-. destruct (attribute_fun _ _ _ _ _ _ Ha Ha') as [-> ->].
                 rewrite Hj in Hj'. by injection Hj' as <- <- <-.
              ** congruence.
              ** exfalso. apply Hfs. rewrite Hf in Hq1'. injection Hq1' as E. by destruct fs as [|? [|? ?]].
              ** exfalso. rewrite Hf in Hq1'. injection Hq1' as E. destruct fs as [|? [|? ?]]; try done. inversion Hp'. by destruct k1.
      * intros n r. split; [by left|]. intros [?|Hx]; [done|]. exfalso.
        inversion Hx as [? ? Hc'|? ? ? ? ? [Hq1' _] Hfs|? ? ? ? ? ? ? ? ? [Hq1' Hp']]; subst.
        -- congruence.
        -- apply Hfs. rewrite Hf in Hq1'. injection Hq1' as E. by destruct fs as [|? [|? ?]].
        -- rewrite Hf in Hq1'. injection Hq1' as E. apply (f_equal length) in E. rewrite !app_length in E. simpl in E. lia.
    + rewrite (emission_relation_Ok _ _ _ _ _ _ _ _ Hj). cbn [obind]. eexists. split; [reflexivity|].
      eapply (fields_inv_add D m); [done|done|..]; cbn [md_rels md_refs].
      * intros n x. rewrite lookup_insert_Some. split.
        -- intros [[<- <-]|[Hne Hx]].
           ++ right. by eapply F_record_noisy.
           ++ left. split; [done|]. intros [? _]. congruence.
        -- intros [[Hx _]|Hx].
           ++ right. split; [|done]. intros <-. rewrite (fresh_rels D m f f) in Hx; try done. by left.
           ++ left. inversion Hx as [? ? ? ? ? ? Hc'|v' j' ps' d' e' t' Hc' Hf' Ha' Hj'|? ? ? ? ? ? ? ? ? ? [Hq1' _] Hfs|? ? ? ? ? ? ? ? ? ? ? ? [Hq1' Hp']]; subst.
              ** congruence.
              ** rewrite Hf in Hf'. injection Hf' as <-. destruct (attribute_fun _ _ _ _ _ _ Ha Ha') as [-> ->].
                 rewrite Hj in Hj'. by injection Hj' as <- <- <-.
              ** exfalso. apply Hfs. rewrite Hf in Hq1'. injection Hq1' as E. by destruct fs as [|? [|? ?]].
              ** exfalso. rewrite Hf in Hq1'. injection Hq1' as E. destruct fs as [|? [|? ?]]; try done. inversion Hp'. by destruct k1.
      * assert (forall n r, field_link f n r <-> n = f /\ refs !! rc = Some r) as Hfl.
        { intros n r. split; [|intros [-> Hr]; by eapply FL_record_noisy].
          intros Hx. inversion Hx as [? ? Hc'|? ? ? ? ? [Hq1' _] Hfs|? ? ? ? ? ? ? ? ? [Hq1' Hp']]; subst.
          - done.
          - exfalso. apply Hfs. rewrite Hf in Hq1'. injection Hq1' as E. by destruct fs as [|? [|? ?]].
          - exfalso. rewrite Hf in Hq1'. injection Hq1' as E. apply (f_equal length) in E. rewrite !app_length in E. simpl in E. lia. }
        intros n r. rewrite Hfl. destruct (refs !! rc) as [r0|] eqn:Hr0.
        -- rewrite lookup_insert_Some. split.
           ++ intros [[<- <-]|[Hne Hx]]; [by right|by left].
           ++ intros [Hx|[-> [= ->]]]; [right; split; [|done]|by left]. intros <-. rewrite (fresh_refs D m f f) in Hx; try done. by left.
        -- split; [by left|]. intros [?|[_ ?]]; [done|congruence].
  - (* through reference fields *)
    rewrite bool_decide_eq_false_2 by (rewrite app_length; simpl; lia).
    assert (levels (ks ++ [z])%list (f1 :: fs) = reverse (zip (seq 0 (length (zip ks (f1 :: fs)))) (zip ks (f1 :: fs)))) as Hlev.
    { unfold levels. rewrite zip_take by done. f_equal. f_equal. f_equal. rewrite zip_with_length. lia. }
    rewrite Hlev. assert ((zip ks (f1 :: fs)).*1 = ks) as Hz1 by (apply fst_zip; lia).
    assert ((zip ks (f1 :: fs)).*2 = f1 :: fs) as Hz2 by (apply snd_zip; lia).
    set (pairs := zip ks (f1 :: fs)) in *. clearbody pairs. clear Hlev Hlast Hw.
    destruct only_final eqn:Hof.
    + rewrite (fresh_refs D m f f); try done; [|by left]. cbn [default from_option].
      rewrite (final_loop pairs 0 (default [] (dm !! z)) ∅) by (intros; apply lookup_empty). rewrite Hz1, Hz2.
      rewrite (left_id_L ∅ (∪)). rewrite (emission_relation_Ok _ _ _ _ _ _ _ _ Hj). cbn [obind]. eexists. split; [reflexivity|].
      assert (attr_name z v <> f) as Hne by by apply attr_not_field.
      eapply (fields_inv_add D m); [done|done|..]; cbn [md_rels md_refs].
      * intros n x. rewrite lookup_insert_Some. split.
        -- intros [[<- <-]|[Hn Hx]].
           ++ right. by eapply F_final.
           ++ left. split; [done|]. intros (_ & v' & Hf' & _). rewrite Hf in Hf'. injection Hf' as ? E. by destruct fs.
        -- intros [[Hx _]|Hx].
           ++ right. split; [|done]. intros <-. rewrite (fresh_rels D m f f) in Hx; try done. by left.
           ++ left. inversion Hx as [? ? ? ? ? ? Hc' Hf'|? ? ? ? ? ? Hc' Hf'|fs' ks2 z' v' j' ps' d' e' t' Hc' Hq' Hfs Ha' Hj'|]; subst.
              ** exfalso. rewrite Hf in Hf'. injection Hf' as ? E. by destruct fs.
              ** exfalso. rewrite Hf in Hf'. injection Hf' as ? E. by destruct fs.
              ** destruct (queries_det _ _ _ _ _ _ _ _ _ Hq Hq') as (-> & -> & -> & ->).
                 destruct (attribute_fun _ _ _ _ _ _ Ha Ha') as [-> ->]. rewrite Hj in Hj'. by injection Hj' as <- <- <-.
              ** congruence.
      * rewrite lookup_insert_ne by done. rewrite (attr_refs D m z v j ps HI Ha).
        assert (forall n r, field_link f n r <-> n = f /\ r = match refs !! z with Some r => r | None => path_links (length (dom_of z)) (reverse (f1 :: fs)) end) as Hfl.
        { intros n r. split; [|intros [-> ->]; by eapply (FL_final f (f1 :: fs))].
          intros Hx. inversion Hx as [? ? Hc' Hf'|fs' ks2 z' v' Hc' Hq' Hfs|]; subst.
          - exfalso. rewrite Hf in Hf'. injection Hf' as ? E. by destruct fs.
          - destruct (queries_det _ _ _ _ _ _ _ _ _ Hq Hq') as (-> & -> & -> & ->). done.
          - congruence. }
        intros n r. rewrite Hfl. destruct (refs !! z) as [r0|] eqn:Hr0.
        -- rewrite insert_insert, lookup_insert_Some. split.
           ++ intros [[<- <-]|[Hn Hx]]; [by right|by left].
           ++ intros [Hx|[-> ->]]; [right; split; [|done]|by left]. intros <-. rewrite (fresh_refs D m f f) in Hx; try done. by left.
        -- rewrite lookup_insert_Some. split.
           ++ intros [[<- <-]|[Hn Hx]]; [by right|by left].
           ++ intros [Hx|[-> ->]]; [right; split; [|done]|by left]. intros <-. rewrite (fresh_refs D m f f) in Hx; try done. by left.
    + destruct (chain_loop f j (attr_name z v) ps d e t m (dom_of z) Hj) with (pairs := pairs) (i0 := 0) as (st & Hst & _ & _ & _ & H1 & H2).
      { intros i. rewrite (attr_refs D m z v j ps HI Ha). destruct (refs !! z) as [r|] eqn:Hr; simpl; [by eapply Hsmall|].
        rewrite lookup_empty. by intros [? ?]. }
      { done. } { by rewrite Hz1. } { by rewrite Hz1. }
      { rewrite Hz1. intros k Hk. split; [eapply fresh_rels|eapply fresh_refs]; try done; right; exists k; (split; [by apply Hks|done]). }
      { eapply fresh_rels; try done. by left. } { eapply fresh_refs; try done. by left. }
      change (default [] (dm !! z)) with (dom_of z). rewrite Hst. cbn [obind]. eexists. split; [reflexivity|].
      assert (forall k1 k k2, ks = k1 ++ k :: k2 -> exists p1 v1 p2, pairs = p1 ++ (k, v1) :: p2 /\ p1.*1 = k1 /\ p2.*1 = k2) as Hsplit.
      { intros k1 k k2 Hk. rewrite <- Hz1 in Hk. apply fmap_app_inv in Hk as (p1 & q & -> & Hq' & ->).
        destruct q as [|[k' v1] p2]; simpl in Hq'; [done|]. injection Hq' as -> ->. by exists p1, v1, p2. }
      eapply (fields_inv_add D m); [done|done|..].
      * intros n x. rewrite H1. split.
        -- intros [Hx|(p1 & k & v1 & p2 & Hpp & -> & ->)].
           ++ left. split; [done|]. intros (_ & v' & Hf' & _). rewrite Hf in Hf'. injection Hf' as ? E. by destruct fs.
           ++ right. assert (ks = p1.*1 ++ k :: p2.*1) as Hk.
              { rewrite <- Hz1. rewrite Hpp at 1. rewrite fmap_app. done. }
              assert (queries s f (f1 :: fs) (p1.*1 ++ k :: p2.*1) z v) as Hq' by by rewrite <- Hk.
              pose proof (F_chain f (f1 :: fs) (p1.*1) k (p2.*1) z v j ps d e t Hof Hq' Ha Hj) as HF.
              unfold lname, chain_decl, first_name. simpl.
              destruct p1 as [|[k0 v0] p1]; simpl in *; destruct p2 as [|[k3 v3] p2]; simpl in *; exact HF.
        -- intros [[Hx _]|Hx]; [by left|]. right.
           inversion Hx as [? ? ? ? ? ? Hc' Hf'|? ? ? ? ? ? Hc' Hf'|? ? ? ? ? ? ? ? ? Hc'|fs' k1 k k2 z' v' j' ps' d' e' t' Hc' Hq' Ha' Hj']; subst.
           ++ exfalso. rewrite Hf in Hf'. injection Hf' as ? E. by destruct fs.
           ++ exfalso. rewrite Hf in Hf'. injection Hf' as ? E. by destruct fs.
           ++ congruence.
           ++ destruct (queries_det _ _ _ _ _ _ _ _ _ Hq Hq') as (-> & Hk & -> & ->).
              destruct (attribute_fun _ _ _ _ _ _ Ha Ha') as [-> ->]. rewrite Hj in Hj'. injection Hj' as <- <- <-.
              destruct (Hsplit k1 k k2) as (p1 & v1 & p2 & Hpp & <- & <-); [done|].
              exists p1, k, v1, p2. split_and!; [done|..]; unfold lname, chain_decl, first_name; simpl;
                destruct p1 as [|[k0 v0] p1]; simpl in *; destruct p2 as [|[k3 v3] p2]; reflexivity.
      * assert (forall r1, chain_links (attr_name z v) m (dom_of z) r1 = default ∅ (refs !! z) ∪ path_links (length (dom_of z)) r1) as Hcl.
        { intros r1. unfold chain_links. by rewrite (attr_refs D m z v j ps HI Ha). }
        intros n x. rewrite H2. split.
        -- intros [Hx|(p1 & k & v1 & p2 & Hpp & -> & ->)]; [by left|]. right. rewrite Hcl.
           assert (ks = p1.*1 ++ k :: p2.*1) as Hk. { rewrite <- Hz1. rewrite Hpp at 1. by rewrite fmap_app. }
           assert (f1 :: fs = p1.*2 ++ v1 :: p2.*2) as Hv1. { rewrite <- Hz2. rewrite Hpp at 1. by rewrite fmap_app. }
           assert (queries s f (p1.*2 ++ v1 :: p2.*2) (p1.*1 ++ k :: p2.*1) z v) as Hq' by by rewrite <- Hk, <- Hv1.
           pose proof (FL_chain f (p1.*2) v1 (p2.*2) (p1.*1) k (p2.*1) z v Hof Hq') as HF. rewrite !fmap_length in HF.
           specialize (HF eq_refl). unfold lname. destruct p1 as [|[k0 v0] p1]; exact HF.
        -- intros [Hx|Hx]; [by left|]. right.
           inversion Hx as [? ? Hc' Hf'|? ? ? ? Hc'|f1' v0 f2 k1 k k2 z' v' Hc' Hq' Hl]; subst.
           ++ exfalso. rewrite Hf in Hf'. injection Hf' as ? E. by destruct fs.
           ++ congruence.
           ++ destruct (queries_det _ _ _ _ _ _ _ _ _ Hq Hq') as (Hfs & Hk & -> & ->).
              destruct (Hsplit k1 k k2) as (p1 & v1 & p2 & Hpp & <- & <-); [done|].
              assert (f1 :: fs = p1.*2 ++ v1 :: p2.*2) as Hv1. { rewrite <- Hz2. rewrite Hpp at 1. by rewrite fmap_app. }
              rewrite Hv1 in Hfs. rewrite fmap_length in Hl. apply app_inj_1 in Hfs as [-> [= -> ->]]; [|by rewrite fmap_length].
              exists p1, k, v1, p2. split_and!; [done|..].
              ** unfold lname. by destruct p1 as [|[k0 v0] p1].
              ** by rewrite Hcl.
Qed.

Lemma fields_inv_iff (D D' : string -> Prop) m : (forall f, D f <-> D' f) -> fields_inv D m -> fields_inv D' m.
Proof.
  intros HD [H1 H2]. assert (forall c v, renamed D c v <-> renamed D' c v) as Hren.
  { intros c v. unfold renamed. split; intros (? & ? & f & Hf & ?); (split; [done|]); (split; [done|]); exists f; (split; [by apply HD|done]). }
  split; intros n x.
  - rewrite H1. split.
    + intros [(c & v & j & ps & d & e & t & Ha & Hj & Hr & Hx)|(f & Hf & Hx)].
      * left. exists c, v, j, ps, d, e, t. split; [done|]. split; [done|]. split; [|done]. intros ?. by apply Hr, Hren.
      * right. exists f. split; [by apply HD|done].
    + intros [(c & v & j & ps & d & e & t & Ha & Hj & Hr & Hx)|(f & Hf & Hx)].
      * left. exists c, v, j, ps, d, e, t. split; [done|]. split; [done|]. split; [|done]. intros ?. by apply Hr, Hren.
      * right. exists f. split; [by apply HD|done].
  - rewrite H2. split; (intros [?|(f & Hf & Hx)]; [by left|right; exists f; split; [by apply HD|done]]).
Qed.
Lemma queryfield_loop rcl l : (record_is_clean = true -> record_queried_once s) -> cs !! rc = Some rcl -> NoDup l -> forall D m,
  (forall f, f ∈ l -> is_Some (fields !! f) /\ ~ D f) -> fields_inv D m ->
  exists m', foldM (fun m f => queryfield_step only_final record_is_clean cs dm refs rc rcl m (f, default [] (fields !! f))) m l = Ok m' /\
    fields_inv (fun f => D f \/ f ∈ l) m'.
Proof.
  intros Honce Hrc Hnd. induction Hnd as [|f l Hf Hnd IH]; intros D m Hl HI; cbn [foldM].
  - exists m. split; [done|]. eapply fields_inv_iff; [|exact HI]. intros f. rewrite elem_of_nil. tauto.
  - destruct (Hl f) as [[path Hp] HD]; [apply elem_of_list_here|]. rewrite Hp. cbn [default from_option id].
    destruct (queryfield_Ok D m f path rcl Honce HI HD Hrc Hp) as (m1 & E & HI1). rewrite E. cbn [obind].
    destruct (IH (fun f' => D f' \/ f' = f) m1) as (m' & E' & HI'); [|done|].
    { intros f' Hf'. destruct (Hl f') as [? ?]; [by apply elem_of_list_further|]. split; [done|]. intros [?| ->]; done. }
    exists m'. split; [exact E'|]. eapply fields_inv_iff; [|exact HI']. intros f'. cbn beta. rewrite elem_of_cons. tauto.
Qed.
Theorem make_hirm_schema_Ok : (record_is_clean = true -> record_queried_once s) ->
  exists m, make_hirm_schema only_final record_is_clean s dm refs = Ok m /\ fields_inv (fun f => is_Some (fields !! f)) m.
Proof.
  intros Honce. unfold make_hirm_schema. destruct attrs_Ok as (m & E & [H1 H2]). rewrite E. cbn [obind].
  destruct (wf_record s WF) as [rcl Hrc]. rewrite Hrc. cbn [at_ obind].
  destruct (queryfield_loop rcl (sorted_names fields) Honce Hrc (NoDup_sorted_names _) (fun _ => False) m) as (m' & E' & HI).
  - intros f Hf. split; [by apply elem_of_sorted_names|tauto].
  - split; intros n x; [rewrite H1|rewrite H2].
    + split.
      * intros (c & v & j & ps & d & e & t & _ & Ha & Hj & Hx). left. exists c, v, j, ps, d, e, t. split; [done|]. split; [done|]. split; [|done].
        by intros (_ & _ & f & [] & _).
      * intros [(c & v & j & ps & d & e & t & Ha & Hj & _ & Hx)|(f & [] & _)]. by exists c, v, j, ps, d, e, t.
    + split.
      * intros (c & v & j & ps & _ & Hx). left. by exists c, v, j, ps.
      * intros [(c & v & j & ps & Hx)|(f & [] & _)]. exists c, v, j, ps. done.
  - exists m'. split; [exact E'|]. eapply fields_inv_iff; [|exact HI]. intros f. cbn beta. rewrite elem_of_sorted_names. tauto.
Qed.
End Make.
