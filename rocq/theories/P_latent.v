(** Effect of transition_latent_value on the relations involved. *)
From stdpp Require Import gmap strings list.
From Coq Require Import ZArith Reals Lia.
From Verif Require Import M_base M_math M_crp M_domain M_dist M_relation M_noisy S_relation S_irm S_latent
  P_base P_math P_relation P_any.

(** ** Blocks while some observations are taken out *)
Section Loose.
  Context {V : Type} {D : Dist V} (L : lawful D).
  Implicit Types (g : items_t -> option (list Z)) (data cur : gmap items_t V) (hh : list Z -> law_hyp L) (zs : gset (list Z)) (cl : gmap (list Z) (d_state D)).

  Lemma blocks_have_unique hh g zs cur cl cl' :
    blocks_have L hh g zs cur cl -> blocks_have L hh g zs cur cl' -> cl = cl'.
  Proof. intros H H'. apply map_eq. intros z. by rewrite (H z), (H' z). Qed.

  Lemma blocks_hold_have hh g data cl : blocks_hold L hh g data cl -> blocks_have L hh g (dom cl) data cl.
  Proof.
    intros H z. destruct (decide (z ∈ dom cl)) as [Hz|Hz].
    - apply elem_of_dom in Hz as [c Hc]. pose proof (H z) as Hz. rewrite Hc in Hz |- *. by destruct (values_in g data z).
    - by apply not_elem_of_dom.
  Qed.
  Lemma blocks_have_hold hh g zs data cl :
    blocks_have L hh g zs data cl -> (forall z, z ∈ zs <-> values_in g data z <> []) -> blocks_hold L hh g data cl.
  Proof.
    intros H Hz z. rewrite (H z). specialize (Hz z). destruct (decide (z ∈ zs)) as [Hin|Hin].
    - destruct (values_in g data z) eqn:E; [by destruct (proj1 Hz Hin)|done].
    - destruct (values_in g data z) eqn:E; [done|]. destruct Hin. by apply Hz.
  Qed.

  Lemma have_take hh g zs cur cl k v z :
    blocks_have L hh g zs cur cl -> (forall k v, cur !! k = Some v -> law_adm L v) ->
    cur !! k = Some v -> g k = Some z -> z ∈ zs ->
    exists c c', cl !! z = Some c /\ d_uninc D c v = Ok c' /\ blocks_have L hh g zs (delete k cur) (<[z := c']> cl).
  Proof.
    intros H Ha Hk Hg Hz. pose proof (values_in_delete g cur k v z Hk) as Hp. rewrite decide_True in Hp by done.
    exists (law_of L (hh z) (values_in g cur z)), (law_of L (hh z) (values_in g (delete k cur) z)). split_and!.
    - by rewrite (H z), decide_True.
    - rewrite (law_perm D L _ _ _ Hp). apply law_uninc. rewrite <- Hp. by apply values_in_Forall.
    - intros z'. destruct (decide (z' = z)) as [->|Hne].
      + by rewrite lookup_insert, decide_True.
      + rewrite lookup_insert_ne by done. rewrite (H z'). destruct (decide (z' ∈ zs)); [|done]. f_equal. apply law_perm.
        rewrite (values_in_delete g cur k v z' Hk). by rewrite decide_False by congruence.
  Qed.
  Lemma have_put hh g zs cur cl k v z :
    blocks_have L hh g zs cur cl -> (forall k v, cur !! k = Some v -> law_adm L v) ->
    cur !! k = None -> g k = Some z -> z ∈ zs ->
    exists c, cl !! z = Some c /\ forall c', d_inc D c v = Ok c' <->
      law_adm L v /\ c' = law_of L (hh z) (v :: values_in g cur z) /\ blocks_have L hh g zs (<[k := v]> cur) (<[z := c']> cl).
  Proof.
    intros H Ha Hk Hg Hz. pose proof (values_in_insert g cur k v z Hk) as Hp. rewrite decide_True in Hp by done.
    exists (law_of L (hh z) (values_in g cur z)). split; [by rewrite (H z), decide_True|]. intros c'.
    rewrite (law_inc D L) by by apply values_in_Forall. split; [|by intros (? & ? & _)]. intros [Hv ->]. split_and!; [done|done|].
    intros z'. destruct (decide (z' = z)) as [->|Hne].
    - rewrite lookup_insert, decide_True by done. f_equal. by apply law_perm.
    - rewrite lookup_insert_ne by done. rewrite (H z'). destruct (decide (z' ∈ zs)); [|done]. f_equal. apply law_perm.
      rewrite (values_in_insert g cur k v z' Hk). by rewrite decide_False by congruence.
  Qed.
End Loose.

(** ** One relation *)
Section OneRel.
  Context {V : Type} {D : Dist V} (L : lawful D) (W : world) (A : clustering) (HW : world_holds W A).
  Implicit Types (rel : relation D) (cur : gmap items_t V) (hh : list Z -> law_hyp L) (zs : gset (list Z)).

  Lemma take_one rel hh zs cur k v z :
    blocks_have L hh (block_of A (r_doms rel)) zs cur (r_clusters rel) -> (forall k v, cur !! k = Some v -> law_adm L v) ->
    r_data rel !! k = Some v -> cur !! k = Some v -> block_of A (r_doms rel) k = Some z -> z ∈ zs ->
    exists cl, unincorporate_from_cluster D W rel k = Ok (set_clusters D rel cl) /\
      blocks_have L hh (block_of A (r_doms rel)) zs (delete k cur) cl.
  Proof.
    intros H Ha Hd Hk Hg Hz. destruct (have_take L _ _ _ _ _ _ _ _ H Ha Hk Hg Hz) as (c & c' & Hc & Hc' & Hh).
    exists (<[z := c']> (r_clusters rel)). split; [|done]. unfold unincorporate_from_cluster, get_value.
    rewrite (proj2 (get_cluster_assignment_Ok W A HW rel k z) Hg). cbn [obind].
    rewrite bool_decide_eq_true_2 by (apply elem_of_dom; eauto). cbn [obind assert_].
    rewrite bool_decide_eq_true_2 by (apply elem_of_dom; eauto). cbn [obind assert_].
    rewrite Hd. cbn [at_ obind]. rewrite Hc. cbn [at_ obind]. by rewrite Hc'.
  Qed.

  Lemma put_one rel hh zs cur k v z :
    blocks_have L hh (block_of A (r_doms rel)) zs cur (r_clusters rel) -> (forall k v, cur !! k = Some v -> law_adm L v) ->
    cur !! k = None -> block_of A (r_doms rel) k = Some z -> z ∈ zs ->
    (forall rel', incorporate_to_cluster D W rel k v = Ok rel' -> law_adm L v /\ exists cl, rel' = set_clusters D rel cl /\
      blocks_have L hh (block_of A (r_doms rel)) zs (<[k := v]> cur) cl) /\
    (law_adm L v -> exists rel', incorporate_to_cluster D W rel k v = Ok rel').
  Proof.
    intros H Ha Hk Hg Hz. destruct (have_put L _ _ _ _ _ _ v _ H Ha Hk Hg Hz) as (c & Hc & Hi).
    unfold incorporate_to_cluster. rewrite (proj2 (get_cluster_assignment_Ok W A HW rel k z) Hg). cbn [obind].
    rewrite bool_decide_eq_true_2 by (apply elem_of_dom; eauto). cbn [obind assert_]. rewrite Hc. cbn [at_ obind]. split.
    - intros rel' E. apply obind_Ok in E as (c' & E & [= <-]). apply Hi in E as (Hv & _ & Hh). eauto.
    - intros Hv. destruct (law_inc D L (hh z) (values_in (block_of A (r_doms rel)) cur z) v) with (s' := law_of L (hh z) (v :: values_in (block_of A (r_doms rel)) cur z)) as [_ E].
      { by apply values_in_Forall. }
      pose proof (H z) as Hcz. rewrite Hc, decide_True in Hcz by done. injection Hcz as ->. rewrite E by done. simpl. eauto.
  Qed.

  Lemma rel_holds_have rel : rel_holds L A rel -> exists hh,
    blocks_have L hh (block_of A (r_doms rel)) (dom (r_clusters rel)) (r_data rel) (r_clusters rel) /\
    (forall k v, r_data rel !! k = Some v -> law_adm L v) /\
    (forall k, is_Some (r_data rel !! k) -> exists z, block_of A (r_doms rel) k = Some z /\ z ∈ dom (r_clusters rel)) /\
    (forall z, z ∈ dom (r_clusters rel) <-> values_in (block_of A (r_doms rel)) (r_data rel) z <> []).
  Proof.
    intros H. destruct (rh_blocks _ _ _ H) as [hh Hb]. exists hh. split_and!.
    - by apply blocks_hold_have.
    - intros k v Hv. by apply (rh_known _ _ _ H k v).
    - intros k [v Hv]. destruct (rh_known _ _ _ H k v Hv) as [[z Hz] _]. exists z. split; [done|].
      apply elem_of_dom. pose proof (Hb z) as Hbz. pose proof (values_in_delete (block_of A (r_doms rel)) (r_data rel) k v z Hv) as Hp.
      rewrite decide_True in Hp by done. rewrite Hbz. destruct (values_in _ (r_data rel) z); [by apply Permutation_nil_cons in Hp|]. eauto.
    - intros z. rewrite elem_of_dom. pose proof (Hb z) as Hbz. rewrite Hbz. destruct (values_in _ (r_data rel) z).
      + split; [by intros [? ?]|done].
      + split; [done|eauto].
  Qed.
End OneRel.

(** ** One noisy relation *)
Definition touch {V} (bi : items_t) (n : noisy V) : noisy V :=
  n_set n (n_data n) (<[bi := default ∅ (n_b2n n !! bi)]> (n_b2n n)) (n_rel n).
Definition with_cl {V} (n : noisy V) (cl : gmap (list Z) (d_state (em_dist (n_em n)))) : noisy V :=
  n_set n (n_data n) (n_b2n n) (set_clusters _ (n_rel n) cl).
Lemma with_cl_same {V} (n : noisy V) : with_cl n (r_clusters (n_rel n)) = n.
Proof. by destruct n as [E data b b2n []]. Qed.

Section OneNoisy.
  Context {V : Type} (o : orders) (Ho : orders_ok o) (W : world) (A : clustering) (HW : world_holds W A).
  Context (n : noisy V) (L : lawful (em_dist (n_em n))) (hh : list Z -> law_hyp L).
  Notation g := (block_of A (r_doms (n_rel n))).
  Notation pairs := (r_data (n_rel n)).
  Notation zs := (dom (r_clusters (n_rel n))).
  Implicit Types (cur : gmap items_t (V * V)) (cl : gmap (list Z) (d_state (em_dist (n_em n)))).
  Context (Hz : forall k, is_Some (pairs !! k) -> exists z, g k = Some z /\ z ∈ zs).
  Context (Hdata : n_data n = snd <$> pairs).

  Lemma take_loop l obs : forall cl cur, NoDup l ->
    blocks_have L hh g zs cur cl -> (forall k v, cur !! k = Some v -> law_adm L v) ->
    (forall k, k ∈ l -> is_Some (pairs !! k) /\ cur !! k = pairs !! k) ->
    exists cl' cur', foldM (fun n k => take_noisy W n obs k) (with_cl n cl) l = Ok (with_cl n cl') /\
      blocks_have L hh g zs cur' cl' /\ forall k, cur' !! k = if decide (k ∈ l) then None else cur !! k.
  Proof.
    induction l as [|k l IH]; intros cl cur Hnd Hb Ha Hl; cbn [foldM].
    { exists cl, cur. split_and!; [done|done|]. intros k. by rewrite decide_False by apply not_elem_of_nil. }
    apply NoDup_cons in Hnd as [Hk Hnd]. destruct (Hl k) as [[v Hv] Hc]; [left|]. destruct (Hz k) as (z & Hg & Hin); [eauto|].
    rewrite Hv in Hc. destruct (take_one L W A HW (set_clusters _ (n_rel n) cl) hh zs cur k v z Hb Ha Hv Hc Hg Hin) as (cl1 & E & Hb1).
    unfold take_noisy at 1, noisy_unincorporate_from_cluster. cbn [with_cl n_rel n_set n_em]. rewrite E. cbn [obind].
    destruct (IH cl1 (delete k cur) Hnd Hb1) as (cl' & cur' & E' & Hb' & Hcur).
    - intros k' v' Hv'%lookup_delete_Some. by apply (Ha k'), Hv'.
    - intros k' Hk'. destruct (Hl k') as [Hs Hc']; [by right|]. split; [done|]. rewrite lookup_delete_ne by (intros ->; done). done.
    - exists cl', cur'. split_and!; [exact E'|done|]. intros k'. rewrite Hcur. destruct (decide (k' ∈ l)) as [Hk'|Hk'].
      + by rewrite decide_True by by right.
      + destruct (decide (k' = k)) as [->|Hne].
        * rewrite lookup_delete, decide_True by left. done.
        * rewrite lookup_delete_ne by done. rewrite decide_False; [done|]. by intros [?|?]%elem_of_cons.
  Qed.

  (** Storing does the same as taking out, and remembers the noisy values. *)
  Lemma store_loop l : forall (n1 : noisy V) obs0 n2 obs, foldM (fun n k => take_noisy W n obs k) n1 l = Ok n2 ->
    (forall k, k ∈ l -> is_Some (n_data n1 !! k)) ->
    exists obs', foldM (store_step W) (n1, obs0) l = Ok (n2, obs') /\
      forall k, obs' !! k = if decide (k ∈ l) then n_data n1 !! k else obs0 !! k.
  Proof.
    induction l as [|k l IH]; intros n1 obs0 n2 obs H Hl; cbn [foldM] in *.
    { injection H as <-. exists obs0. split; [done|]. intros k. by rewrite decide_False by apply not_elem_of_nil. }
    apply obind_Ok in H as (n1' & H1 & H). destruct (Hl k) as [v Hv]; [left|]. unfold take_noisy in H1.
    assert (n_data n1' = n_data n1) as Hd.
    { unfold noisy_unincorporate_from_cluster in H1. by apply obind_Ok in H1 as (? & _ & [= <-]). }
    destruct (IH n1' (<[k := v]> obs0) n2 obs H) as (obs' & E & Hobs).
    { intros k' Hk'. rewrite Hd. apply Hl. by right. }
    exists obs'. split.
    - unfold store_step at 1, noisy_get_value. rewrite bool_decide_eq_true_2 by (apply elem_of_dom; eauto). cbn [assert_ obind].
      rewrite Hv. cbn [at_ obind]. rewrite H1. cbn [obind]. exact E.
    - intros k'. rewrite Hobs, Hd. destruct (decide (k' ∈ l)) as [Hk'|Hk'].
      + by rewrite decide_True by by right.
      + destruct (decide (k' = k)) as [->|Hne].
        * rewrite lookup_insert, decide_True by left. done.
        * rewrite lookup_insert_ne by done. rewrite decide_False; [done|]. by intros [?|?]%elem_of_cons.
  Qed.

  Lemma put_loop (b : base_view V) (obs : gmap items_t V) u l : forall cl cur, NoDup l ->
    blocks_have L hh g zs cur cl -> (forall k v, cur !! k = Some v -> law_adm L v) ->
    (forall k, k ∈ l -> is_Some (pairs !! k) /\ cur !! k = None /\ obs !! k = n_data n !! k /\ get_base_value b k = Ok u) ->
    (forall n', foldM (fun n k => put_noisy b W n obs k) (with_cl n cl) l = Ok n' ->
      exists cl' cur', n' = with_cl n cl' /\ blocks_have L hh g zs cur' cl' /\ (forall k v, cur' !! k = Some v -> law_adm L v) /\
        forall k, cur' !! k = if decide (k ∈ l) then (fun v => (u, v)) <$> n_data n !! k else cur !! k) /\
    ((forall k v, k ∈ l -> n_data n !! k = Some v -> law_adm L (u, v)) ->
      exists n', foldM (fun n k => put_noisy b W n obs k) (with_cl n cl) l = Ok n').
  Proof.
    induction l as [|k l IH]; intros cl cur Hnd Hb Ha Hl; cbn [foldM].
    { split; [|eauto]. intros n' [= <-]. exists cl, cur. split; [done|]. split; [done|]. split; [done|]. intros k. by rewrite decide_False by apply not_elem_of_nil. }
    apply NoDup_cons in Hnd as [Hk Hnd]. destruct (Hl k) as ([p Hp] & Hc & Hobs & Hbv); [left|]. destruct (Hz k) as (z & Hg & Hin); [eauto|].
    assert (n_data n !! k = Some p.2) as Hd by (rewrite Hdata, lookup_fmap, Hp; done).
    destruct (put_one L W A HW (set_clusters _ (n_rel n) cl) hh zs cur k (u, p.2) z Hb Ha Hc Hg Hin) as [Hput Hcan].
    unfold put_noisy at 1 3, noisy_incorporate_to_cluster. rewrite Hobs, Hd. cbn [at_ obind]. rewrite Hbv. cbn [obind with_cl n_rel n_set n_em].
    assert (forall cl1, blocks_have L hh g zs (<[k := (u, p.2)]> cur) cl1 -> law_adm L (u, p.2) ->
      (forall n', foldM (fun n k => put_noisy b W n obs k) (with_cl n cl1) l = Ok n' ->
        exists cl' cur', n' = with_cl n cl' /\ blocks_have L hh g zs cur' cl' /\ (forall k v, cur' !! k = Some v -> law_adm L v) /\
          forall k', cur' !! k' = if decide (k' ∈ k :: l) then (fun v => (u, v)) <$> n_data n !! k' else cur !! k') /\
      ((forall k v, k ∈ l -> n_data n !! k = Some v -> law_adm L (u, v)) ->
        exists n', foldM (fun n k => put_noisy b W n obs k) (with_cl n cl1) l = Ok n')) as Hnext.
    { intros cl1 Hb1 Hv. destruct (IH cl1 (<[k := (u, p.2)]> cur) Hnd Hb1) as [IH1 IH2].
      - intros k' v' [[<- <-]|[_ ?]]%lookup_insert_Some; [done|by eapply Ha].
      - intros k' Hk'. destruct (Hl k') as (? & ? & ? & ?); [by right|]. split_and!; try done. rewrite lookup_insert_ne; [done|]. by intros ->.
      - split; [|exact IH2]. intros n' E. destruct (IH1 n' E) as (cl' & cur' & -> & Hb' & Ha' & Hcur). exists cl', cur'. split_and!; try done.
        intros k'. rewrite Hcur. destruct (decide (k' ∈ l)) as [Hk'|Hk'].
        + by rewrite decide_True by by right.
        + destruct (decide (k' = k)) as [->|Hne].
          * rewrite lookup_insert, decide_True, Hd by left. done.
          * rewrite lookup_insert_ne by done. rewrite decide_False; [done|]. by intros [?|?]%elem_of_cons. }
    split.
    - intros n' E. apply obind_Ok in E as (n1 & E1 & E). apply obind_Ok in E1 as (rel1 & E1 & [= <-]).
      destruct (Hput _ E1) as (Hv & cl1 & -> & Hb1). by apply (proj1 (Hnext cl1 Hb1 Hv)).
    - intros Hadm. destruct (Hcan (Hadm k p.2 (elem_of_list_here _ _) Hd)) as [rel1 E1]. rewrite E1. cbn [obind].
      destruct (Hput _ E1) as (Hv & cl1 & -> & Hb1). apply (proj2 (Hnext cl1 Hb1 Hv)). intros k' v' Hk'. apply Hadm. by right.
  Qed.
End OneNoisy.

(** ** One noisy relation through the whole transition *)
Section Cycle.
  Context {V : Type} (o : orders) (Ho : orders_ok o) (bi : items_t) (k : nat) (u : V).
  Implicit Types (W : world) (n : noisy V) (obs : gmap items_t V) (b : base_view V) (Ws : list world) (ns : list (noisy V))
    (obss : list (gmap items_t V)).

  (** The noisy relation agrees with its data, is over a base with [k] domains, and stores
      the observations over [bi] with the value [u]. *)
  Definition latent_ready W n : Prop := exists ar A, world_holds W A /\ any_holds ar A (ANoisy n) /\
    ar (n_base n) = Some k /\ forall items p, r_data (n_rel n) !! items = Some p -> take k items = bi -> p.1 = u.

  (** What is left of a noisy relation when the base value of [bi] becomes [v]: only the
      blocks are different, and they have accumulated the new pairs. *)
  Definition latent_after W n (v : V) (n' : noisy V) : Prop := exists A (L : lawful (em_dist (n_em n))) hh cl,
    world_holds W A /\ n' = with_cl (touch bi n) cl /\
    blocks_hold L hh (block_of A (r_doms (n_rel n))) (r_data (n_rel n)) (r_clusters (n_rel n)) /\
    blocks_hold L hh (block_of A (r_doms (n_rel n))) (pairs_at k bi v (r_data (n_rel n))) cl.

  Definition over n : list items_t := o_vecs o (default ∅ (n_b2n n !! bi)).
  Lemma over_spec n ar A : any_holds ar A (ANoisy n) -> ar (n_base n) = Some k ->
    NoDup (over n) /\ forall items, items ∈ over n <-> is_Some (r_data (n_rel n) !! items) /\ take k items = bi.
  Proof.
    intros (_ & Hd & k' & Hk & _ & Hi) Hk'. assert (k' = k) as -> by congruence. destruct Ho as (Hv & _). split.
    - unfold over. rewrite Hv. apply NoDup_elements.
    - intros items. unfold over. rewrite Hv, elem_of_elements, (Hi bi items), Hd, lookup_fmap, fmap_is_Some. done.
  Qed.
  Lemma values_in_same_dom {T T' : Type} (g : items_t -> option (list Z)) (m : gmap items_t T) (m' : gmap items_t T') z :
    (forall i, is_Some (m !! i) <-> is_Some (m' !! i)) -> values_in g m z <> [] <-> values_in g m' z <> [].
  Proof.
    intros H. rewrite !values_in_nil. split; intros Hn Hc; apply Hn; intros i v Hv.
    - destruct (proj1 (H i)) as [v' Hv']; [by rewrite Hv; eauto|]. by apply (Hc i v').
    - destruct (proj2 (H i)) as [v' Hv']; [by rewrite Hv; eauto|]. by apply (Hc i v').
  Qed.

  Lemma pairs_at_lookup (v : V) (m : gmap items_t (V * V)) i :
    pairs_at k bi v m !! i = (fun p => if decide (take k i = bi) then (v, p.2) else p) <$> m !! i.
  Proof. unfold pairs_at. rewrite map_lookup_imap. by destruct (m !! i). Qed.

  Lemma noisy_cycle W n : latent_ready W n -> exists n_out obs,
    store_noisy o W bi n = Ok (n_out, obs) /\ n_b2n n_out !! bi = Some (default ∅ (n_b2n n !! bi)) /\
    (forall obs', foldM (fun n k => take_noisy W n obs' k) (touch bi n) (over n) = Ok n_out) /\
    (forall b v n', bv_arity b = k -> bv_data b !! bi = Some v ->
       foldM (fun n k => put_noisy b W n obs k) n_out (over n) = Ok n' -> latent_after W n v n' /\ (v = u -> n' = touch bi n)) /\
    (forall b v, bv_arity b = k -> bv_data b !! bi = Some v -> v = u \/ accepts_all (em_dist (n_em n)) ->
       exists n', foldM (fun n k => put_noisy b W n obs k) n_out (over n) = Ok n').
  Proof.
    intros (ar & A & HW & Hn & Hk & Hu). destruct (over_spec n ar A Hn Hk) as [Hnd Hov].
    pose proof Hn as ([L HL] & Hd & k' & Hk' & Hle & _). assert (k' = k) as -> by congruence.
    destruct (rel_holds_have L A (n_rel n) HL) as (hh & Hb & Ha & Hz & Hne).
    set (n1 := touch bi n). set (g := block_of A (r_doms (n_rel n))) in *.
    assert (with_cl n1 (r_clusters (n_rel n)) = n1) as H1 by (apply (with_cl_same n1)).
    assert (forall items, items ∈ over n -> is_Some (r_data (n_rel n) !! items)) as Hin by (intros i Hi; by apply Hov).
    destruct (take_loop W A HW n1 L hh Hz (over n) ∅ (r_clusters (n_rel n)) (r_data (n_rel n)) Hnd Hb Ha) as (cl & cur & E & Hcl & Hcur).
    { intros i Hi. split; [by apply Hin|done]. }
    rewrite H1 in E.
    destruct (store_loop W (over n) n1 ∅ _ ∅ E) as (obs & Es & Hobs).
    { intros i Hi. cbn [n1 touch n_data n_set]. rewrite Hd, lookup_fmap, fmap_is_Some. by apply Hin. }
    exists (with_cl n1 cl), obs. split_and!.
    - exact Es.
    - cbn [with_cl n_b2n n_set n1 touch]. by rewrite lookup_insert.
    - intros obs'. exact E.
    - assert (forall i v, cur !! i = Some v -> law_adm L v) as Hca.
      { intros i v. rewrite Hcur. destruct (decide (i ∈ over n)); [done|]. apply Ha. }
      intros b v n' Hbk Hbv En.
      destruct (put_loop W A HW n1 L hh Hz Hd b obs v (over n) cl cur Hnd Hcl Hca) as [Hput _].
      { intros i Hi. split_and!; [by apply Hin| | |].
        - by rewrite Hcur, decide_True.
        - by rewrite Hobs, decide_True.
        - apply Hov in Hi as [[p Hp] Ht]. unfold get_base_value, get_base_items, base_get_value.
          assert (k <= length i). { destruct (rh_known _ _ _ HL i p Hp) as [[z Hzi] _]. apply block_of_Some in Hzi as [? _]. lia. }
          rewrite Hbk, bool_decide_eq_true_2 by done. cbn [obind]. rewrite Ht.
          rewrite bool_decide_eq_true_2 by (apply elem_of_dom; eauto). cbn [assert_ obind]. by rewrite Hbv. }
      destruct (Hput n' En) as (cl' & cur' & -> & Hcl' & _ & Hcur').
      assert (cur' = pairs_at k bi v (r_data (n_rel n))) as Hpairs.
      { apply map_eq. intros i. rewrite Hcur', pairs_at_lookup, Hcur. cbn [n1 touch n_data n_set].
        destruct (decide (i ∈ over n)) as [Hi|Hi].
        - apply Hov in Hi as [[p Hp] Ht]. rewrite Hd, lookup_fmap, Hp. simpl. by rewrite decide_True.
        - destruct (r_data (n_rel n) !! i) as [p|] eqn:Hp; simpl; [|done]. rewrite decide_False; [done|].
          intros Ht. apply Hi, Hov. rewrite Hp. eauto. }
      assert (forall i, is_Some (r_data (n_rel n) !! i) <-> is_Some (pairs_at k bi v (r_data (n_rel n)) !! i)) as Hsd.
      { intros i. by rewrite pairs_at_lookup, fmap_is_Some. }
      rewrite Hpairs in Hcl'. split.
      + exists A, L, hh, cl'. split_and!; [done|done| |].
        * by eapply blocks_have_hold.
        * eapply blocks_have_hold; [exact Hcl'|]. intros z. etransitivity; [apply (Hne z)|]. by apply values_in_same_dom.
      + intros ->. assert (pairs_at k bi u (r_data (n_rel n)) = r_data (n_rel n)) as Hsame.
        { apply map_eq. intros i. rewrite pairs_at_lookup. destruct (r_data (n_rel n) !! i) as [p|] eqn:Hp; simpl; [|done].
          destruct (decide (take k i = bi)) as [Ht|Ht]; [|done]. rewrite <- (Hu i p Hp Ht). by destruct p. }
        rewrite Hsame in Hcl'. by rewrite (blocks_have_unique L hh g _ _ cl' _ Hcl' Hb).
    - intros b w Hbk Hbv Hwu.
      assert (forall i v, cur !! i = Some v -> law_adm L v) as Hca.
      { intros i v. rewrite Hcur. destruct (decide (i ∈ over n)); [done|]. apply Ha. }
      destruct (put_loop W A HW n1 L hh Hz Hd b obs w (over n) cl cur Hnd Hcl Hca) as [_ Hput].
      { intros i Hi. split_and!; [by apply Hin| | |].
        - by rewrite Hcur, decide_True.
        - by rewrite Hobs, decide_True.
        - apply Hov in Hi as [[p Hp] Ht]. unfold get_base_value, get_base_items, base_get_value.
          assert (k <= length i). { destruct (rh_known _ _ _ HL i p Hp) as [[z Hzi] _]. apply block_of_Some in Hzi as [? _]. lia. }
          rewrite Hbk, bool_decide_eq_true_2 by done. cbn [obind]. rewrite Ht.
          rewrite bool_decide_eq_true_2 by (apply elem_of_dom; eauto). cbn [assert_ obind]. by rewrite Hbv. }
      apply Hput. intros i v Hi Hv. destruct Hwu as [->|Hall].
      2:{ destruct (Hall (law_of L (hh []) []) (w, v)) as [s' Hs']. by eapply (law_inc _ L (hh []) []) in Hs' as [? _]. }
      cbn [n1 touch n_data n_set] in Hv. rewrite Hd, lookup_fmap in Hv.
      apply Hov in Hi as [_ Ht]. destruct (r_data (n_rel n) !! i) as [p|] eqn:Hp; [|done]. injection Hv as <-.
      rewrite <- (Hu i p Hp Ht). destruct p. by eapply Ha.
  Qed.

  (** ** All noisy relations of the base *)
  Inductive noisies (P : world -> noisy V -> noisy V -> gmap items_t V -> Prop) :
    list world -> list (noisy V) -> list (noisy V) -> list (gmap items_t V) -> Prop :=
  | noisies_nil : noisies P [] [] [] []
  | noisies_cons W n n' obs Ws ns ns' obss : P W n n' obs -> noisies P Ws ns ns' obss ->
      noisies P (W :: Ws) (n :: ns) (n' :: ns') (obs :: obss).

  Lemma each_noisy_inv (f : world -> noisy V -> gmap items_t V -> items_t -> outcome (noisy V)) (P Q : world -> noisy V -> noisy V -> gmap items_t V -> Prop) Ws (ns0 ns : list (noisy V)) obss ns' :
    (forall W n0 n obs n', P W n0 n obs -> n_b2n n !! bi = Some (default ∅ (n_b2n n0 !! bi)) /\
       (foldM (fun n items => f W n obs items) n (over n0) = Ok n' -> Q W n0 n' obs)) ->
    noisies P Ws ns0 ns obss -> each_noisy f o Ws bi ns obss = Ok ns' -> noisies Q Ws ns0 ns' obss.
  Proof.
    intros Hf H. revert ns'. induction H as [|W n0 n obs Ws ns0 ns obss HP H IH]; intros ns' E; cbn [each_noisy] in E.
    { injection E as <-. constructor. }
    apply obind_Ok in E as (s & Hs%at_Ok & E). apply obind_Ok in E as (n' & En & E). apply obind_Ok in E as (ns'' & Ens & [= <-]).
    destruct (Hf W n0 n obs n' HP) as [Hb Hq]. rewrite Hs in Hb. injection Hb as ->. constructor; [by apply Hq|by apply IH].
  Qed.
  Lemma each_noisy_Ok (f : world -> noisy V -> gmap items_t V -> items_t -> outcome (noisy V)) (P : world -> noisy V -> noisy V -> gmap items_t V -> Prop) Ws (ns0 ns : list (noisy V)) obss :
    (forall W n0 n obs, P W n0 n obs -> n_b2n n !! bi = Some (default ∅ (n_b2n n0 !! bi)) /\
       exists n', foldM (fun n items => f W n obs items) n (over n0) = Ok n') ->
    noisies P Ws ns0 ns obss -> exists ns', each_noisy f o Ws bi ns obss = Ok ns'.
  Proof.
    intros Hf H. induction H as [|W n0 n obs Ws ns0 ns obss HP H IH]; cbn [each_noisy]; [eauto|].
    destruct (Hf W n0 n obs HP) as [Hb [n' En]]. destruct IH as [ns' Ens]. rewrite Hb. cbn [at_ obind]. unfold over in En.
    rewrite En. cbn [obind]. rewrite Ens. cbn [obind]. eauto.
  Qed.

  Definition stored W n n' obs : Prop := latent_ready W n /\ store_noisy o W bi n = Ok (n', obs).
  Definition touched W n n' obs : Prop := n' = touch bi n /\ exists n1, stored W n n1 obs.

  Lemma store_all_spec Ws ns : Forall2 latent_ready Ws ns ->
    exists ns' obss, store_all o Ws bi ns = Ok (ns', obss) /\ noisies stored Ws ns ns' obss.
  Proof.
    induction 1 as [|W n Ws ns Hr _ (ns' & obss & E & IH)]; cbn [store_all].
    - exists [], []. split; [done|constructor].
    - destruct (noisy_cycle W n Hr) as (n' & obs & Es & _). exists (n' :: ns'), (obs :: obss). rewrite Es. cbn [obind]. rewrite E. cbn [obind].
      split; [done|]. constructor; [done|done].
  Qed.
  Lemma noisies_mid (P : world -> noisy V -> noisy V -> gmap items_t V -> Prop) (f : noisy V -> noisy V) Ws ns ns' obss :
    (forall W n n' obs, P W n n' obs -> n' = f n) -> noisies P Ws ns ns' obss -> ns' = f <$> ns.
  Proof. intros Hf. induction 1; csimpl; [done|]. f_equal; eauto. Qed.
  Lemma stored_unique Ws ns ns' ns'' obss : noisies stored Ws ns ns' obss -> noisies stored Ws ns ns'' obss -> ns'' = ns'.
  Proof.
    intros H. revert ns''. induction H as [|W n n' obs Ws ns ns' obss [_ H1] _ IH]; intros ns'' H2; inversion H2; [done|]; simplify_eq.
    f_equal; [|by apply IH]. match goal with H : stored _ _ _ _ |- _ => destruct H end. congruence.
  Qed.
  Lemma noisies_impl (P Q : world -> noisy V -> noisy V -> gmap items_t V -> Prop) Ws ns ns' obss :
    (forall W n n' obs, P W n n' obs -> Q W n n' obs) -> noisies P Ws ns ns' obss -> noisies Q Ws ns ns' obss.
  Proof. intros Hf. induction 1; constructor; eauto. Qed.

  Lemma touch_scores (ns : list (noisy V)) : noisy_scores (touch bi <$> ns) = noisy_scores ns.
  Proof.
    unfold noisy_scores. generalize 0%R. induction ns as [|n ns IH]; intros x; csimpl; [done|]. by rewrite IH.
  Qed.

  (** Entering the noisy observations again with the old base value gives back the state
      before they were taken out, and taking them out the state after. *)
  Lemma put_old b Ws ns ns1 obss : bv_arity b = k -> bv_data b !! bi = Some u -> noisies stored Ws ns ns1 obss ->
    exists ns', each_noisy (put_noisy b) o Ws bi ns1 obss = Ok ns' /\ ns' = touch bi <$> ns /\ noisies touched Ws ns ns' obss.
  Proof.
    intros Hk Hu H.
    destruct (each_noisy_Ok (put_noisy b) stored Ws ns ns1 obss) as [ns' E]; [|done|].
    { intros W n0 n obs [Hr Hs]. destruct (noisy_cycle W n0 Hr) as (n1 & obs1 & Es & Hb & _ & _ & Hput). rewrite Hs in Es; injection Es as <- <-. split; [done|]. apply (Hput b u Hk Hu). by left. }
    assert (noisies touched Ws ns ns' obss) as Ht.
    { eapply each_noisy_inv; [|done|done]. intros W n0 n obs n' [Hr Hs]. destruct (noisy_cycle W n0 Hr) as (n1 & obs1 & Es & Hb & _ & Hput & _).
      rewrite Hs in Es; injection Es as <- <-. split; [done|]. intros En. split; [by apply (Hput b u n' Hk Hu En)|]. by exists n. }
    exists ns'. split_and!; [done| |done]. eapply noisies_mid; [|exact Ht]. by intros W n n' obs [-> _].
  Qed.
  Lemma take_again Ws ns ns' obss : noisies touched Ws ns ns' obss ->
    exists ns1, each_noisy take_noisy o Ws bi ns' obss = Ok ns1 /\ noisies stored Ws ns ns1 obss.
  Proof.
    intros H. destruct (each_noisy_Ok take_noisy touched Ws ns ns' obss) as [ns1 E]; [|done|].
    { intros W n0 n obs [-> (n1 & Hr & Hs)]. destruct (noisy_cycle W n0 Hr) as (n2 & obs1 & Es & Hb & Ht & _). rewrite Hs in Es; injection Es as <- <-. split.
      - cbn [touch n_b2n n_set]. by rewrite lookup_insert.
      - exists n1. apply Ht. }
    exists ns1. split; [done|]. eapply each_noisy_inv; [|exact H|exact E]. intros W n0 n obs n' [-> (n1 & Hr & Hs)].
    destruct (noisy_cycle W n0 Hr) as (n2 & obs1 & Es & Hb & Ht & _). rewrite Hs in Es; injection Es as <- <-. split.
    - cbn [touch n_b2n n_set]. by rewrite lookup_insert.
    - intros En. rewrite (Ht obs) in En. injection En as <-. by split.
  Qed.
  Lemma put_total b v Ws ns ns1 obss : bv_arity b = k -> bv_data b !! bi = Some v -> noisies stored Ws ns ns1 obss ->
    Forall (fun n => accepts_all (em_dist (n_em n))) ns -> exists ns', each_noisy (put_noisy b) o Ws bi ns1 obss = Ok ns'.
  Proof.
    intros Hk Hv H Hall.
    apply (each_noisy_Ok (put_noisy b) (fun W n n' obs => stored W n n' obs /\ accepts_all (em_dist (n_em n))) Ws ns ns1 obss).
    - intros W n0 n obs [[Hr Hs] Ha]. destruct (noisy_cycle W n0 Hr) as (n1 & obs1 & Es & Hb & _ & _ & Hput). rewrite Hs in Es; injection Es as <- <-.
      split; [done|]. apply (Hput b v Hk Hv). by right.
    - clear -H Hall. induction H as [|W n n' obs Ws ns ns1 obss H1 _ IH]; [constructor|]. apply Forall_cons in Hall as [Ha Hall].
      constructor; [by split|by apply IH].
  Qed.
  Lemma put_new b v Ws ns ns1 obss ns' : bv_arity b = k -> bv_data b !! bi = Some v -> noisies stored Ws ns ns1 obss ->
    each_noisy (put_noisy b) o Ws bi ns1 obss = Ok ns' -> noisies (fun W n n' _ => latent_after W n v n') Ws ns ns' obss.
  Proof.
    intros Hk Hv H. eapply each_noisy_inv; [|done]. intros W n0 n obs n' [Hr Hs].
    destruct (noisy_cycle W n0 Hr) as (n1 & obs1 & Es & Hb & _ & Hput & _). rewrite Hs in Es; injection Es as <- <-. split; [done|]. intros En.
    by apply (Hput b v n' Hk Hv En).
  Qed.
End Cycle.

(** ** The base relation *)
Section Base.
  Context {V : Type}.
  Implicit Types (a : any_rel V) (lk : string -> option (any_rel V)).

  Lemma any_put_view lk W a items v a' : any_incorporate_to_cluster lk W a items v = Ok a' ->
    view_of a' = view_of a /\ any_type a' true = any_type a true.
  Proof.
    destruct a as [D rel|n]; cbn [any_incorporate_to_cluster]; intros H.
    - apply obind_Ok in H as (rel' & H & [= <-]). unfold incorporate_to_cluster in H.
      apply obind_Ok in H as (? & _ & H). apply obind_Ok in H as (? & _ & H). apply obind_Ok in H as (? & _ & H).
      by apply obind_Ok in H as (? & _ & [= <-]).
    - apply obind_Ok in H as (b & _ & H). apply obind_Ok in H as (n' & H & [= <-]). unfold noisy_incorporate_to_cluster in H.
      apply obind_Ok in H as (? & _ & H). apply obind_Ok in H as (rel & H & [= <-]). unfold incorporate_to_cluster in H.
      apply obind_Ok in H as (? & _ & H). apply obind_Ok in H as (? & _ & H). apply obind_Ok in H as (? & _ & H).
      by apply obind_Ok in H as (? & _ & [= <-]).
  Qed.
  Lemma any_take_view W a items a' : any_unincorporate_from_cluster W a items = Ok a' ->
    view_of a' = view_of a /\ any_type a' true = any_type a true.
  Proof.
    destruct a as [D rel|n]; cbn [any_unincorporate_from_cluster]; intros H.
    - apply obind_Ok in H as (rel' & H & [= <-]). unfold unincorporate_from_cluster in H.
      apply obind_Ok in H as (? & _ & H). apply obind_Ok in H as (? & _ & H). apply obind_Ok in H as (? & _ & H).
      apply obind_Ok in H as (? & _ & H). by apply obind_Ok in H as (? & _ & [= <-]).
    - apply obind_Ok in H as (n' & H & [= <-]). unfold noisy_unincorporate_from_cluster in H.
      apply obind_Ok in H as (rel & H & [= <-]). unfold unincorporate_from_cluster in H.
      apply obind_Ok in H as (? & _ & H). apply obind_Ok in H as (? & _ & H). apply obind_Ok in H as (? & _ & H).
      apply obind_Ok in H as (? & _ & H). by apply obind_Ok in H as (? & _ & [= <-]).
  Qed.
  Lemma rel_update_data {T} {D : Dist T} W (rel : relation D) items v rel' : rel_update_value D W rel items v = Ok rel' ->
    r_doms rel' = r_doms rel /\ r_spec rel' = r_spec rel /\ r_data rel' = <[items := v]> (r_data rel) /\ r_data_r rel' = r_data_r rel.
  Proof.
    intros H. unfold rel_update_value in H. apply obind_Ok in H as (rel1 & H1 & H). apply obind_Ok in H as (rel2 & H2 & H).
    apply obind_Ok in H as (? & _ & [= <-]). unfold unincorporate_from_cluster in H1.
    apply obind_Ok in H1 as (? & _ & H1). apply obind_Ok in H1 as (? & _ & H1). apply obind_Ok in H1 as (? & _ & H1).
    apply obind_Ok in H1 as (? & _ & H1). apply obind_Ok in H1 as (? & _ & [= <-]). unfold incorporate_to_cluster in H2.
    apply obind_Ok in H2 as (? & _ & H2). apply obind_Ok in H2 as (? & _ & H2). apply obind_Ok in H2 as (? & _ & H2).
    by apply obind_Ok in H2 as (? & _ & [= <-]).
  Qed.
  Lemma any_update_view lk W a items v a' : any_update_value lk W a items v = Ok a' ->
    any_doms a' = any_doms a /\ any_data a' = <[items := v]> (any_data a) /\ any_type a' true = any_type a true.
  Proof.
    destruct a as [D rel|n]; cbn [any_update_value]; intros H.
    - apply obind_Ok in H as (rel' & H & [= <-]). apply rel_update_data in H as (H1 & H2 & H3 & _).
      split_and!; [done|done|]. cbn [any_type]. by rewrite H1, H2.
    - apply obind_Ok in H as (b & _ & H). apply obind_Ok in H as (n' & H & [= <-]). unfold noisy_update_value in H.
      apply obind_Ok in H as (? & _ & H). apply obind_Ok in H as (bv & _ & H). apply obind_Ok in H as (rel & H & [= <-]).
      apply rel_update_data in H as (H1 & H2 & _). cbn [any_doms any_data any_type n_set n_rel n_data n_em n_base]. by rewrite H1, H2.
  Qed.

  (** The base relation through one candidate. *)
  Definition base_try lk (Wb : world) (bi : items_t) a (v : V) : outcome (any_rel V) :=
    let* a := any_incorporate_to_cluster lk Wb a bi v in any_unincorporate_from_cluster Wb a bi.

  Lemma logp_loop lk o (Ho : orders_ok o) Wb Ws bi obss (u : V) ns ns1 cands : forall base1 logpx0 logpx base2 ns2,
    bv_data (view_of base1) !! bi = Some u -> noisies (stored o bi (bv_arity (view_of base1)) u) Ws ns ns1 obss ->
    foldM (logp_step lk o Wb Ws bi obss (noisy_scores ns1)) (logpx0, (base1, ns1)) cands = Ok (logpx, (base2, ns2)) ->
    ns2 = ns1 /\ view_of base2 = view_of base1 /\ any_type base2 true = any_type base1 true /\
    foldM (base_try lk Wb bi) base1 cands = Ok base2 /\
    logpx = logpx0 ++ replicate (length cands) (noisy_scores ns - noisy_scores ns1)%R.
  Proof.
    induction cands as [|v cands IH]; intros base1 logpx0 logpx base2 ns2 Hu Hst H; cbn [foldM] in H |- *.
    { injection H as <- <- <-. split_and!; try done. cbn [length replicate]. by rewrite app_nil_r. }
    apply obind_Ok in H as ([lp st] & H1 & H). unfold logp_step in H1. apply obind_Ok in H1 as ([x st'] & Ht & [= <- <-]).
    unfold try_candidate in Ht. apply obind_Ok in Ht as (b1 & Hb1 & Ht). destruct (any_put_view _ _ _ _ _ _ Hb1) as [Hv1 Hty1].
    destruct (put_old o Ho bi (bv_arity (view_of base1)) u (view_of b1) Ws ns ns1 obss) as (ns' & Eput & Hns' & Htouch); [by rewrite Hv1|by rewrite Hv1|done|].
    rewrite Eput in Ht. cbn [obind] in Ht. destruct (take_again o Ho bi (bv_arity (view_of base1)) u Ws ns ns' obss Htouch) as (ns1' & Etake & Hst').
    rewrite Etake in Ht. cbn [obind] in Ht. rewrite (stored_unique o bi (bv_arity (view_of base1)) u Ws ns ns1 ns1' obss Hst Hst') in Ht.
    apply obind_Ok in Ht as (b2 & Hb2 & [= <- <-]). destruct (any_take_view _ _ _ _ Hb2) as [Hv2 Hty2].
    assert (view_of b2 = view_of base1) as Hv by by rewrite Hv2.
    destruct (IH b2 _ _ _ _ ltac:(by rewrite Hv) ltac:(by rewrite Hv) H) as (-> & Hview & Hty & Hf & ->).
    split_and!; [done|by rewrite Hview|by rewrite Hty, Hty2| |].
    - unfold base_try at 1. rewrite Hb1. cbn [obind]. rewrite Hb2. cbn [obind]. exact Hf.
    - rewrite <- app_assoc. f_equal. cbn [length replicate app]. f_equal. by rewrite Hns', touch_scores.
  Qed.

  Lemma transition_latent_spec lk o (Ho : orders_ok o) Wb Ws bi base ns (u : V) r base' ns' r' :
    any_data base !! bi = Some u -> Forall2 (latent_ready bi (length (any_doms base)) u) Ws ns ->
    transition_latent_value lk o Wb Ws bi (base, ns) r = Ok (base', ns', r') ->
    exists base1 ns1 obss cands r1 base2 base3 v i,
      unincorporate_and_store o Wb Ws bi (base, ns) = Ok (base1, ns1, obss) /\
      any_unincorporate_from_cluster Wb base bi = Ok base1 /\
      candidates o Wb bi base1 ns1 (all_observations o obss) r = Ok (cands, r1) /\
      incremental_logp lk o Wb Ws bi cands obss (base1, ns1) =
        Ok (replicate (length cands) (noisy_scores ns - noisy_scores ns1)%R, (base2, ns1)) /\
      foldM (base_try lk Wb bi) base1 cands = Ok base2 /\
      log_choice (Some <$> replicate (length cands) (noisy_scores ns - noisy_scores ns1)%R) r1 = Ok (i, r') /\
      cands !! i = Some v /\
      any_incorporate_to_cluster lk Wb base2 bi v = Ok base3 /\ any_update_value lk Wb base3 bi v = Ok base' /\
      any_doms base' = any_doms base /\ any_data base' = <[bi := v]> (any_data base) /\ any_type base' true = any_type base true /\
      noisies (fun W n n' _ => latent_after bi (length (any_doms base)) W n v n') Ws ns ns' obss.
  Proof.
    intros Hu Hr H. unfold transition_latent_value in H. apply obind_Ok in H as ([[base1 ns1] obss] & Hs & H).
    pose proof Hs as Hs0. unfold unincorporate_and_store in Hs. apply obind_Ok in Hs as (b1 & Hb1 & Hs).
    destruct (store_all_spec o Ho bi (length (any_doms base)) u Ws ns Hr) as (ns1' & obss' & Es & Hst). rewrite Es in Hs. cbn [obind] in Hs. injection Hs as -> -> ->.
    apply obind_Ok in H as ([cands r1] & Hc & H). apply obind_Ok in H as ([logpx [base2 ns2]] & Hl & H).
    pose proof (any_take_view _ _ _ _ Hb1) as [Hv1 Hty1]. cbn [fst snd] in Hc, Hl.
    pose proof Hl as Hl0. unfold incremental_logp in Hl. cbn [snd] in Hl.
    destruct (logp_loop lk o Ho Wb Ws bi obss u ns ns1 cands base1 [] logpx base2 ns2) as (-> & Hv2 & Hty2 & Hf & ->).
    { by rewrite Hv1. } { rewrite Hv1. exact Hst. } { exact Hl. }
    cbn [app] in *. unfold choose_and_incorporate in H. apply obind_Ok in H as ([i r2] & Hi & H).
    apply obind_Ok in H as (v & Hv & H). apply obind_Ok in H as (base3 & Hb3 & H). apply obind_Ok in H as (base4 & Hb4 & H).
    apply obind_Ok in H as (ns3 & Hns & [= <- <- <-]).
    destruct (any_put_view _ _ _ _ _ _ Hb3) as [Hv3 Hty3]. destruct (any_update_view _ _ _ _ _ _ Hb4) as (Hd4 & Hdata4 & Hty4).
    assert (view_of base3 = view_of base) as Hv30 by by rewrite Hv3, Hv2.
    assert (any_doms base3 = any_doms base) as Hd3.
    { apply (any_type_doms base base3 true). by rewrite Hty3, Hty2. }
    assert (any_data base3 = any_data base) as Hdt3 by exact (f_equal bv_data Hv30).
    exists base1, ns1, obss, cands, r1, base2, base3, v, i. split_and!; try done.
    - destruct (cands !! i) as [w|]; [|done]. by injection Hv as ->.
    - by rewrite Hd4.
    - by rewrite Hdata4, Hdt3.
    - by rewrite Hty4, Hty3, Hty2.
    - eapply (put_new o Ho bi (length (any_doms base)) u (view_of base4)); [|..|done|done].
      + cbn [view_of bv_arity]. by rewrite Hd4, Hd3.
      + cbn [view_of bv_data]. rewrite Hdata4. by rewrite lookup_insert.
  Qed.

  (** ** The block of a clean base *)
  Definition in_block {D : Dist V} (rel : relation D) (z : list Z) (c : d_state D) : relation D :=
    set_clusters D rel (<[z := c]> (r_clusters rel)).
  Lemma in_block_twice {D : Dist V} (rel : relation D) z c c' : in_block (in_block rel z c) z c' = in_block rel z c'.
  Proof. unfold in_block. cbn [set_clusters r_clusters]. by rewrite insert_insert. Qed.
  Lemma clean_take {D : Dist V} W (rel : relation D) items z u c rel' :
    get_cluster_assignment D W rel items = Ok z -> r_data rel !! items = Some u ->
    unincorporate_from_cluster D W (in_block rel z c) items = Ok rel' ->
    exists c', d_uninc D c u = Ok c' /\ rel' = in_block rel z c'.
  Proof.
    intros Hz Hu H. unfold unincorporate_from_cluster in H. change (get_cluster_assignment D W (in_block rel z c) items) with (get_cluster_assignment D W rel items) in H.
    rewrite Hz in H. cbn [obind] in H. apply obind_Ok in H as (? & _ & H). apply obind_Ok in H as (v & Hv & H).
    unfold get_value in Hv. apply obind_Ok in Hv as (? & _ & Hv%at_Ok). cbn [in_block set_clusters r_data] in Hv. assert (v = u) as -> by congruence.
    cbn [in_block set_clusters r_clusters] in H. rewrite lookup_insert in H. cbn [at_ obind] in H.
    apply obind_Ok in H as (c' & Hc & [= <-]). exists c'. split; [done|]. apply in_block_twice.
  Qed.
  Lemma clean_put {D : Dist V} W (rel : relation D) items z v c rel' :
    get_cluster_assignment D W rel items = Ok z ->
    incorporate_to_cluster D W (in_block rel z c) items v = Ok rel' ->
    exists c', d_inc D c v = Ok c' /\ rel' = in_block rel z c'.
  Proof.
    intros Hz H. unfold incorporate_to_cluster in H. change (get_cluster_assignment D W (in_block rel z c) items) with (get_cluster_assignment D W rel items) in H.
    rewrite Hz in H. cbn [obind] in H. apply obind_Ok in H as (? & _ & H).
    cbn [in_block set_clusters r_clusters] in H. rewrite lookup_insert in H. cbn [at_ obind] in H.
    apply obind_Ok in H as (c' & Hc & [= <-]). exists c'. split; [done|]. apply in_block_twice.
  Qed.
  Lemma foldM_app {S E} (f : S -> E -> outcome S) l1 l2 s : foldM f s (l1 ++ l2) = let* s' := foldM f s l1 in foldM f s' l2.
  Proof. revert s. induction l1 as [|x l1 IH]; intros s; cbn [foldM app]; [done|]. destruct (f s x); cbn [obind]; [apply IH|done..]. Qed.

  Lemma latent_base_clean {D : Dist V} lk W (rel : relation D) bi u z base1 base2 base3 base' cands v :
    get_cluster_assignment D W rel bi = Ok z -> r_data rel !! bi = Some u ->
    any_unincorporate_from_cluster W (AClean D rel) bi = Ok base1 ->
    foldM (base_try lk W bi) base1 cands = Ok base2 ->
    any_incorporate_to_cluster lk W base2 bi v = Ok base3 -> any_update_value lk W base3 bi v = Ok base' ->
    exists c c', r_clusters rel !! z = Some c /\ foldM (block_do D) c (latent_ops u cands v) = Ok c' /\
      base' = AClean D (set_data D (in_block rel z c') (<[bi := v]> (r_data rel))).
  Proof.
    intros Hz Hu H1 H2 H3 H4. cbn [any_unincorporate_from_cluster] in H1. apply obind_Ok in H1 as (rel1 & H1 & [= <-]).
    destruct (r_clusters rel !! z) as [c|] eqn:Hc.
    2:{ unfold unincorporate_from_cluster in H1. rewrite Hz in H1. cbn [obind] in H1. rewrite bool_decide_eq_false_2 in H1; [done|].
        rewrite elem_of_dom, Hc. by intros [? ?]. }
    assert (rel = in_block rel z c) as Hrel. { unfold in_block. rewrite insert_id by done. by destruct rel. }
    rewrite Hrel in H1. apply clean_take with (u := u) in H1 as (c1 & Hc1 & ->); [|done|done].
    assert (forall cands c1 base2, foldM (base_try lk W bi) (AClean D (in_block rel z c1)) cands = Ok base2 -> exists c2,
      foldM (block_do D) c1 (cands ≫= fun v => [BIn v; BOut u]) = Ok c2 /\ base2 = AClean D (in_block rel z c2)) as Hloop.
    { clear -Hz Hu. induction cands as [|w cands IH]; intros c1 base2 H; cbn [foldM] in H.
      - injection H as <-. exists c1. done.
      - apply obind_Ok in H as (b & Hb & H). unfold base_try in Hb. apply obind_Ok in Hb as (b1 & Hb1 & Hb).
        cbn [any_incorporate_to_cluster] in Hb1. apply obind_Ok in Hb1 as (r1 & Hr1 & [= <-]).
        apply clean_put in Hr1 as (c2 & Hc2 & ->); [|done]. cbn [any_unincorporate_from_cluster] in Hb.
        apply obind_Ok in Hb as (r2 & Hr2 & [= <-]). apply clean_take with (u := u) in Hr2 as (c3 & Hc3 & ->); [|done|done].
        destruct (IH c3 base2 H) as (c4 & Hc4 & ->). exists c4. split; [|done]. csimpl. cbn [foldM block_do]. rewrite Hc2. cbn [obind].
        rewrite Hc3. cbn [obind]. exact Hc4. }
    destruct (Hloop cands c1 base2 H2) as (c2 & Hc2 & ->).
    cbn [any_incorporate_to_cluster] in H3. apply obind_Ok in H3 as (r3 & H3 & [= <-]). apply clean_put in H3 as (c3 & Hc3 & ->); [|done].
    cbn [any_update_value] in H4. apply obind_Ok in H4 as (r4 & H4 & [= <-]). unfold rel_update_value in H4.
    apply obind_Ok in H4 as (r5 & H5 & H4). apply clean_take with (u := u) in H5 as (c4 & Hc4 & ->); [|done|done].
    apply obind_Ok in H4 as (r6 & H6 & H4). apply clean_put in H6 as (c5 & Hc5 & ->); [|done].
    apply obind_Ok in H4 as (? & _ & [= <-]). exists c, c5. split_and!; [done| |done].
    unfold latent_ops. cbn [app]. cbn [foldM block_do]. rewrite Hc1. cbn [obind]. rewrite foldM_app, Hc2. cbn [obind foldM block_do]. rewrite Hc3. cbn [obind].
    rewrite Hc4. cbn [obind]. by rewrite Hc5.
  Qed.

  (** ** The transition returns *)
  Lemma clean_take_total {D : Dist V} W (rel : relation D) items z u c : returns_all D ->
    get_cluster_assignment D W rel items = Ok z -> r_data rel !! items = Some u ->
    exists c', any_unincorporate_from_cluster W (AClean D (in_block rel z c)) items = Ok (AClean D (in_block rel z c')).
  Proof.
    intros HD Hz Hu. destruct (HD c u) as [c' Hc]. exists c'. cbn [any_unincorporate_from_cluster]. unfold unincorporate_from_cluster.
    change (get_cluster_assignment D W (in_block rel z c) items) with (get_cluster_assignment D W rel items). rewrite Hz. cbn [obind].
    rewrite bool_decide_eq_true_2 by (cbn [in_block set_clusters r_clusters]; apply elem_of_dom; rewrite lookup_insert; eauto). cbn [assert_ obind].
    unfold get_value. cbn [in_block set_clusters r_data]. rewrite bool_decide_eq_true_2 by (apply elem_of_dom; eauto). cbn [assert_ obind].
    rewrite Hu. cbn [at_ obind]. cbn [in_block set_clusters r_clusters]. rewrite lookup_insert. cbn [at_ obind]. rewrite Hc. cbn [obind]. f_equal. f_equal. apply in_block_twice.
  Qed.
  Lemma clean_put_total {D : Dist V} lk W (rel : relation D) items z v c : accepts_all D ->
    get_cluster_assignment D W rel items = Ok z ->
    exists c', any_incorporate_to_cluster lk W (AClean D (in_block rel z c)) items v = Ok (AClean D (in_block rel z c')).
  Proof.
    intros HD Hz. destruct (HD c v) as [c' Hc]. exists c'. cbn [any_incorporate_to_cluster]. unfold incorporate_to_cluster.
    change (get_cluster_assignment D W (in_block rel z c) items) with (get_cluster_assignment D W rel items). rewrite Hz. cbn [obind].
    rewrite bool_decide_eq_true_2 by (cbn [in_block set_clusters r_clusters]; apply elem_of_dom; rewrite lookup_insert; eauto). cbn [assert_ obind].
    cbn [in_block set_clusters r_clusters]. rewrite lookup_insert. cbn [at_ obind]. rewrite Hc. cbn [obind]. f_equal. f_equal. apply in_block_twice.
  Qed.
  Lemma latent_total {D : Dist V} lk o (Ho : orders_ok o) Wb Ws bi (rel : relation D) ns (u : V) z r cands r1 :
    accepts_all D -> returns_all D -> Forall (fun n => accepts_all (em_dist (n_em n))) ns ->
    r_data rel !! bi = Some u -> get_cluster_assignment D Wb rel bi = Ok z -> is_Some (r_clusters rel !! z) ->
    Forall2 (latent_ready bi (length (r_doms rel)) u) Ws ns ->
    (forall base1 ns1 obss, unincorporate_and_store o Wb Ws bi (AClean D rel, ns) = Ok (base1, ns1, obss) ->
       candidates o Wb bi base1 ns1 (all_observations o obss) r = Ok (cands, r1)) -> cands <> [] ->
    exists st, transition_latent_value lk o Wb Ws bi (AClean D rel, ns) r = Ok st.
  Proof.
    intros HD HD' HE Hu Hz [c Hc] Hr Hc0 Hne.
    assert (rel = in_block rel z c) as Hrel. { unfold in_block. rewrite insert_id by done. by destruct rel. }
    destruct (clean_take_total Wb rel bi z u c HD' Hz Hu) as [c1 H1]. rewrite <- Hrel in H1.
    destruct (store_all_spec o Ho bi (length (r_doms rel)) u Ws ns Hr) as (ns1 & obss & Es & Hst).
    assert (unincorporate_and_store o Wb Ws bi (AClean D rel, ns) = Ok (AClean D (in_block rel z c1), ns1, obss)) as Hs.
    { unfold unincorporate_and_store. rewrite H1. cbn [obind]. rewrite Es. done. }
    unfold transition_latent_value. rewrite Hs. cbn [obind fst snd]. rewrite (Hc0 _ _ _ Hs). cbn [obind].
    assert (forall cands c1 lp, exists c2 lp', foldM (logp_step lk o Wb Ws bi obss (noisy_scores ns1)) (lp, (AClean D (in_block rel z c1), ns1)) cands
      = Ok (lp', (AClean D (in_block rel z c2), ns1)) /\ length lp' = length lp + length cands) as Hloop.
    { clear Hne Hc0 Hs H1 c1. clear cands. induction cands as [|v cands IH]; intros c1 lp; cbn [foldM]; [exists c1, lp; split; [done|cbn [length]; lia]|].
      destruct (clean_put_total lk Wb rel bi z v c1 HD Hz) as [c2 H2]. unfold logp_step at 1, try_candidate. rewrite H2. cbn [obind].
      destruct (put_old o Ho bi (length (r_doms rel)) u (view_of (AClean D (in_block rel z c2))) Ws ns ns1 obss eq_refl Hu Hst) as (ns' & Ep & _ & Ht).
      rewrite Ep. cbn [obind]. destruct (take_again o Ho bi (length (r_doms rel)) u Ws ns ns' obss Ht) as (ns1' & Et & Hst').
      rewrite Et. cbn [obind]. rewrite (stored_unique o bi (length (r_doms rel)) u Ws ns ns1 ns1' obss Hst Hst').
      destruct (clean_take_total Wb rel bi z u c2 HD' Hz Hu) as [c3 H3]. rewrite H3. cbn [obind].
      destruct (IH c3 (lp ++ [noisy_scores ns' - noisy_scores ns1]%R)) as (c4 & lp' & H4 & Hl). exists c4, lp'. split; [exact H4|].
      rewrite Hl, app_length. cbn [length]. lia. }
    destruct (Hloop cands c1 []) as (c2 & lp & Hl & Hlen). unfold incremental_logp. cbn [snd]. rewrite Hl. cbn [obind].
    unfold choose_and_incorporate. destruct (log_choice_spec (Some <$> lp) r1) as (i & r2 & -> & Hi).
    { destruct lp as [|x lp]; [destruct cands; cbn [length] in Hlen; [done|lia]|]. exists x. left. }
    cbn [obind]. rewrite fmap_length in Hi. destruct (lookup_lt_is_Some_2 cands i) as [v Hv]; [cbn [length] in Hlen; lia|]. rewrite Hv. cbn [idx_ obind].
    destruct (clean_put_total lk Wb rel bi z v c2 HD Hz) as [c3 ->]. cbn [obind].
    destruct (clean_take_total Wb rel bi z u c3 HD' Hz Hu) as [c4 H4]. destruct (clean_put_total lk Wb rel bi z v c4 HD Hz) as [c5 H5].
    cbn [any_update_value]. unfold rel_update_value. cbn [any_unincorporate_from_cluster] in H4. cbn [any_incorporate_to_cluster] in H5.
    apply obind_Ok in H4 as (ra & Ha & _).
    destruct (clean_take Wb rel bi z u c3 ra Hz Hu Ha) as (c6 & _ & ->). rewrite Ha. cbn [obind].
    destruct (clean_put_total lk Wb rel bi z v c6 HD Hz) as [c7 H7]. cbn [any_incorporate_to_cluster] in H7. apply obind_Ok in H7 as (rb & Hb & _).
    destruct (clean_put Wb rel bi z v c6 rb Hz Hb) as (c8 & _ & ->). rewrite Hb. cbn [obind].
    cbn [in_block set_clusters r_data]. rewrite Hu. cbn [at_ obind].
    destruct (put_total o Ho bi (length (r_doms rel)) u (view_of (AClean D (set_data D (in_block rel z c8) (<[bi:=v]> (r_data (in_block rel z c8))))))
       v Ws ns ns1 obss eq_refl ltac:(cbn; by rewrite lookup_insert) Hst HE) as [ns' Hp].
    match goal with |- context [each_noisy ?f o Ws bi ns1 obss] => assert (each_noisy f o Ws bi ns1 obss = Ok ns') as -> by exact Hp end. cbn [obind]. eauto.
  Qed.
End Base.
