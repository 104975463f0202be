(** Building a HIRM from its files: the observations. *)
From Coq Require Import String Ascii.
From stdpp Require Import gmap sorting strings list.
From Coq Require Import ZArith Reals Lia.
From Verif Require Import M_base M_dist M_crp M_domain M_relation M_noisy M_irm M_hirm M_text M_io M_clusters M_restore
  S_crp S_crp_state S_relation S_irm S_hirm S_io S_load S_clusters P_base P_crp P_domain P_relation P_any P_irm P_irm_schema P_irm_history P_hirm P_hirm_move P_hirm_history P_hirm_trans P_hirm_ctor
  P_io P_load P_load_models P_clusters P_clusters_hirm P_restore P_restore_place S_restore.
Local Open Scope nat_scope.

Section Load.
Context {V : Type}.
Implicit Types (h : hirm V) (ir : irm V).

(** ** Observations leave the clusters alone *)
Definition growing h0 h' : Prop := consistent_with h0 h' /\
  forall t, match h_irms h0 !! t, h_irms h' !! t with
    | Some ir0, Some ir' => forall A0 A', world_holds (i_domains ir0) A0 -> world_holds (i_domains ir') A' -> extends h' t A0 A'
    | None, None => True | _, _ => False end.
Lemma growing_refl h a : hirm_holds h a -> growing h h.
Proof.
  intros Hh. split; [by split_and!; eauto|]. intros t. destruct (h_irms h !! t) as [ir|]; [|done]. intros A0 A' H H'.
  rewrite (world_holds_fun _ _ _ H' H). split; [done|done|]. intros d i Hi. by left.
Qed.
Lemma growing_inc h0 h n items v r h' r' : growing h0 h -> hirm_incorporate h n items v r = Ok (h', r') -> growing h0 h'.
Proof.
  intros [([a Hh] & Hsd & Hc) HG] H. destruct (proj1 (hirm_incorporate_spec h a n items v r Hh) _ _ H) as (Hh' & Hsd' & Hc' & _ & Hdat).
  assert (forall k, table_of h' k = table_of h k) as Htab. { intros k. unfold table_of. destruct Hsd' as (_ & -> & _). by rewrite Hc'. }
  split. { split_and!; [by exists a| |congruence]. clear -Hsd Hsd'. unfold same_directory in *. destruct Hsd as (?&?&?&?), Hsd' as (?&?&?&?). split_and!; congruence. }
  assert (forall t A0 A', extends h t A0 A' -> extends h' t A0 A') as Hext.
  { intros t A0 A' [E1 E2 E3]. split; [done|done|]. intros d i Hi. destruct (E3 d i Hi) as [?|(k & ty & m & its & Hty & Ht & Hm & Hits & Hmen)]; [by left|right].
    exists k, ty. destruct (decide (k = n)) as [->|Hne].
    - exists (<[items := v]> m), its. destruct Hsd' as (-> & _). rewrite Htab, Hdat, lookup_alter, Hm. split_and!; [done|done|done| |done].
      destruct (decide (its = items)) as [->|]; [rewrite lookup_insert; eauto|by rewrite lookup_insert_ne].
    - exists m, its. destruct Hsd' as (-> & _). rewrite Htab, Hdat, lookup_alter_ne by done. done. }
  unfold hirm_incorporate in H. apply obind_Ok in H as (tb & Htb%relation_to_table_Ok & H). apply obind_Ok in H as (ir & Hir%at_Ok & H).
  apply obind_Ok in H as ([ir' r1] & H & [= <- <-]). cbn [h_set_irms h_irms]. intros t. specialize (HG t). destruct (decide (tb = t)) as [<-|Hne].
  - rewrite lookup_insert. rewrite Hir in HG. destruct (h_irms h0 !! tb) as [ir0|]; [|done]. intros A0 A' HA0 HA'.
    destruct (irm_at_holds h a tb ir Hh Hir) as [A HA]. destruct (irm_incorporate_spec _ _ ir A n items v r ir' r1 HA (hirm_lookup_arity h a Hh) H) as (A1 & x & HA1 & _ & Hx & _ & _ & _ & Hdom & Hkeep & Hnew).
    rewrite (world_holds_fun _ _ _ HA' (ih_world _ _ _ HA1)) in *. destruct (Hext tb A0 A (HG A0 A HA0 (ih_world _ _ _ HA))) as [E1 E2 E3]. split.
    + by rewrite Hdom.
    + intros d i c Hc0. by apply Hkeep, E2.
    + intros d i Hi. apply Hnew in Hi as [Hi|Hm]; [by apply E3|]. right.
      assert (hirm_lookup h n = Some x) as Hlx by (apply hirm_lookup_iff; eauto). destruct (hirm_lookup_declared h a n x Hh Hlx) as (ty & Hty & Htx).
      exists n, ty, (<[items := v]> (any_data x)), items. destruct Hsd' as (-> & _). rewrite Htab, Hdat, lookup_alter, (hirm_data_lookup h a n Hh), Hlx, lookup_insert. split_and!; [done|done|done|eauto|].
      by rewrite Htx, any_type_t_domains.
  - rewrite lookup_insert_ne by done. destruct (h_irms h0 !! t) as [ir0|], (h_irms h !! t) as [ir1|]; try done. intros A0 A' HA0 HA'. apply Hext. by apply HG.
Qed.
Lemma growing_laws h0 : schema_draws_keep (h_schema h0) -> ops_laws hirm_ops (growing h0) hirm_dat (base_arity (h_schema h0)).
Proof.
  intros HD. pose proof (hirm_ops_laws_consistent h0 HD) as L. split.
  - intros m n items v r m' r' HI H. split; [exact (growing_inc h0 m n items v r m' r' HI H)|]. by apply (l_inc _ _ _ _ L m n items v r m' r' (proj1 HI) H).
  - intros m n items r v m' r' HI H. cbn [hirm_ops op_sample_at] in H. pose proof HI as [([a Hh] & Hs & Hc) _].
    apply (hirm_sample_at_keeps m a n items r v m' r' Hh) in H as ->; [|by destruct Hs as (-> & _)]. done.
  - intros m n x HI. apply (l_get _ _ _ _ L), HI.
  - intros m n x nz b HI. apply (l_base _ _ _ _ L), HI.
Qed.

(** ** Codes do not depend on the iteration order *)
Definition coded_as (f : gmap string (gmap string Z)) ds (x : observation) (y : items_t * string) : Prop := encode_items f ds x.1 = Ok y.1 /\ y.2 = x.2.
Definition push_all (acc : encoded) (rel : string) (l : list (items_t * string)) : encoded := foldl (fun acc y => push acc rel y) acc l.
Lemma push_all_other acc rel l : forall k, k <> rel -> push_all acc rel l !! k = acc !! k.
Proof. revert acc. induction l as [|y l IH]; intros acc k Hk; [done|]. change (push_all (push acc rel y) rel l !! k = acc !! k). rewrite IH by done. unfold push. by rewrite lookup_insert_ne. Qed.
Lemma push_all_same acc acc' rel l : acc !! rel = acc' !! rel -> push_all acc rel l !! rel = push_all acc' rel l !! rel.
Proof. revert acc acc'. induction l as [|y l IH]; intros acc acc' E; [done|].
  change (push_all (push acc rel y) rel l !! rel = push_all (push acc' rel y) rel l !! rel). apply IH. unfold push. by rewrite E, !lookup_insert. Qed.
Lemma encode_list f ds rel l : forall acc acc',
  foldM (fun acc (x : observation) => let* es := encode_items f ds x.1 in Ok (push acc rel (es, x.2))) acc l = Ok acc' ->
  exists l', Forall2 (coded_as f ds) l l' /\ acc' = push_all acc rel l'.
Proof.
  induction l as [|x l IH]; intros acc acc' H; cbn [foldM] in H; [injection H as <-; by exists []|].
  apply obind_Ok in H as (a1 & H1 & H). apply obind_Ok in H1 as (es & Hes & [= <-]). destruct (IH _ _ H) as (l' & HF & ->). exists ((es, x.2) :: l'). split; [|done].
  constructor; [by split|done].
Qed.
Lemma coded_fun f ds l : forall l1 l2, Forall2 (coded_as f ds) l l1 -> Forall2 (coded_as f ds) l l2 -> l1 = l2.
Proof.
  induction l as [|x l IH]; intros l1 l2 H1 H2; inversion H1 as [|? y1 ? ? [Ha Hb]]; inversion H2 as [|? y2 ? ? [Hc Hd]]; subst; [done|]. f_equal; [|by apply IH].
  destruct y1, y2. cbn in *. congruence.
Qed.
Lemma encode_lookup f dm (obs : observations) rels : NoDup rels -> forall acc eobs, foldM (encode_relation f dm obs) acc rels = Ok eobs -> forall rel,
  (rel ∉ rels -> eobs !! rel = acc !! rel) /\
  (rel ∈ rels -> exists ds l, dm rel = Some ds /\ Forall2 (coded_as f ds) (default [] (obs !! rel)) l /\ eobs !! rel = push_all acc rel l !! rel).
Proof.
  induction rels as [|k rels IH]; intros Hnd acc eobs H rel; cbn [foldM] in H; [injection H as <-; split; [done|]; by intros ?%elem_of_nil|].
  apply NoDup_cons in Hnd as [Hk Hnd]. apply obind_Ok in H as (a1 & H1 & H). unfold encode_relation in H1. apply obind_Ok in H1 as (ds & Hds%at_Ok & H1).
  destruct (encode_list f ds k _ _ _ H1) as (l & HF & ->). destruct (IH Hnd _ _ H rel) as [N Y]. split.
  - intros Hn. rewrite not_elem_of_cons in Hn. destruct Hn as [Hne Hn]. rewrite (N Hn). by apply push_all_other.
  - intros Hin. destruct (decide (rel = k)) as [->|Hne].
    + exists ds, l. split_and!; [done..|]. by apply N.
    + apply elem_of_cons in Hin as [?|Hin]; [done|]. destruct (Y Hin) as (ds' & l' & Hds' & HF' & E). exists ds', l'. split_and!; [done..|]. rewrite E. apply push_all_same. by apply push_all_other.
Qed.
Lemma encode_order o o' f dm obs eobs eobs' : orders_ok o -> orders_ok o' ->
  encode_observations o f dm obs = Ok eobs -> encode_observations o' f dm obs = Ok eobs' -> eobs = eobs'.
Proof.
  intros Ho Ho' H H'. unfold encode_observations in *. apply map_eq. intros rel.
  destruct (encode_lookup f dm obs _ (o_names_nodup o _ Ho) _ _ H rel) as [N Y]. destruct (encode_lookup f dm obs _ (o_names_nodup o' _ Ho') _ _ H' rel) as [N' Y'].
  assert (rel ∈ o_names o (dom obs) <-> rel ∈ o_names o' (dom obs)) as Hiff by (by rewrite !in_o_names).
  destruct (decide (rel ∈ o_names o (dom obs))) as [Hin|Hin].
  - destruct (Y Hin) as (ds & l & Hds & HF & ->). destruct (Y' (proj1 Hiff Hin)) as (ds' & l' & Hds' & HF' & ->). assert (ds' = ds) as -> by congruence. by rewrite (coded_fun _ _ _ _ _ HF HF').
  - rewrite (N Hin). rewrite N'; [done|]. by rewrite <- Hiff.
Qed.

(** ** Two models loaded with the same observations *)
Lemma loaded_same (parse : string -> string -> outcome V) eobs base ar n d1 d2 : loaded parse eobs base ar n (Some ∅) (Some d1) -> loaded parse eobs base ar n (Some ∅) (Some d2) ->
  dom d1 = dom d2 /\ (is_Some (eobs !! n) -> d1 = d2).
Proof.
  unfold loaded. destruct (eobs !! n) as [l|].
  - intros (e1 & vs & [= <-] & [= ->] & HF & _) (e2 & vs' & [= <-] & [= ->] & HF' & _). assert (vs = vs') as <-; [|done].
    clear -HF HF'. revert vs' HF'. induction HF as [|x v l vs Hx HF IH]; intros vs' H'; inversion H' as [|? v' ? ? Hx' HF']; subst; [done|]. rewrite (IH _ HF'). f_equal. congruence.
  - intros (e1 & [= <-] & _ & H1) (e2 & [= <-] & _ & H2). split; [|by intros [? ?]]. apply set_eq. intros items. rewrite !elem_of_dom, H1, H2. done.
Qed.
End Load.
