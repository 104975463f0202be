(** How the string emission [bigram] divides an observation among alignments. *)
From Coq Require Import ZArith Reals Ascii String Lra.
From stdpp Require Import list gmap sorting.
From Coq Require Import Lia.
From Verif Require Import M_base M_text M_math M_dist M_distributions M_align M_bigram_emis
  S_math S_align S_bigram_emis P_base P_math P_align T_align P_bigram_emis P_bigram_costs P_bigram_reach P_bigram_totals.
Local Open Scope nat_scope.

(** ** Row totals *)
Lemma list_by_index (l : list R) : l = map (fun i => default 0%R (l !! i)) (seq 0 (length l)).
Proof.
  induction l as [|x l IH]; [done|]. cbn [length seq map]. f_equal. rewrite IH at 1. rewrite <- (seq_shift (length l) 0), map_map. done.
Qed.
Lemma choices_codes : map (fun o => Z.to_nat (bs_index_of o)) choices = seq 0 bs_contexts.
Proof. vm_compute. reflexivity. Qed.
Lemma table_total d : table_ok d -> dc_N d = Rsum (map (fun o => default 0%R (dc_counts d !! Z.to_nat (bs_index_of o))) choices).
Proof.
  intros (Hl & HN & _). rewrite HN. rewrite (list_by_index (dc_counts d)) at 1. rewrite Hl, <- choices_codes, map_map. done.
Qed.
Lemma share_row l i j : tables_ok l -> (0 <= i < Z.of_nat bs_contexts)%Z -> exists a, map dc_alpha l !! Z.to_nat i = Some a /\
  share l i j = ((a + entry l i j) / (Rsum (map (fun o => entry l i (bs_index_of o)) choices) + a * 96))%R.
Proof.
  intros Ht Hi. destruct (table_at l i Ht Hi) as (d & _ & Hd & Hok). exists (dc_alpha d). split; [by rewrite (list_lookup_fmap dc_alpha l), Hd|].
  unfold share, entry. rewrite Hd, (table_total d Hok). destruct Hok as (-> & _). replace (INR bs_contexts) with 96%R; [done|].
  unfold bs_contexts. rewrite INR_IZR_INZ. done.
Qed.
(** The estimate of a choice when the hyperparameters are all 1. *)
Definition plain (b : bse) : Prop := bs_shape b /\ Forall (eq 1%R) (hyperparameters b).
Lemma plain_insert b c d : plain b -> choice_ok c ->
  p_insert b c d = ((1 + inserted b c d) / (Rsum (map (inserted b c) choices) + 96))%R.
Proof.
  intros [[Hs _] Ha] Hc. destruct (share_row (bs_ins b) (bs_index_of c) (bs_index_of d) Hs (ctx_range _ Hc)) as (a & Hl & E).
  unfold p_insert. rewrite E. unfold hyperparameters in Ha. apply Forall_app in Ha as [Ha _].
  assert (1%R = a) as <- by (eapply Forall_lookup_1 in Ha; [exact Ha|exact Hl]). unfold inserted. by rewrite Rmult_1_l.
Qed.
Lemma plain_replace b c d : plain b -> printable c ->
  p_replace b c d = ((1 + replaced b c d) / (Rsum (map (replaced b c) choices) + 96))%R.
Proof.
  intros [[_ Hs] Ha] Hc. destruct (share_row (bs_sub b) (bs_index c) (bs_index_of d) Hs) as (a & Hl & E); [pose proof (idx_range _ Hc); lia|].
  unfold p_replace. rewrite E. unfold hyperparameters in Ha. apply Forall_app in Ha as [_ Ha].
  assert (1%R = a) as <- by (eapply Forall_lookup_1 in Ha; [exact Ha|exact Hl]). unfold replaced. by rewrite Rmult_1_l.
Qed.

(** ** The shares *)
Definition odds (b : bse) (l : list (list piece)) : R := Rsum (map (fun q => / p_searched b q)%R l).
Lemma shares_run pick b x w : least_pick pick -> bs_shape b -> bs_pos b -> printables x.1 -> printables x.2 ->
  exists b' found, bs_incorporate pick b x w = Ok b' /\ 1 <= length found <= 2 /\ NoDup found /\
    (forall q, q ∈ found -> aligns q x.1 x.2) /\
    StronglySorted (fun q q' => p_searched b q' <= p_searched b q)%R found /\
    (forall q, aligns q x.1 x.2 -> q ∉ found -> length found = 2 /\ forall a, a ∈ found -> (p_searched b q <= p_searched b a)%R) /\
    bs_N b' = (bs_N b + w)%R /\
    grown b b' (fun c d => w * Rsum (map (fun q => / p_searched b q / odds b found * times (c, d) (insertion_choices None q)) found))%R
               (fun c d => w * Rsum (map (fun q => / p_searched b q / odds b found * times (c, d) (replacements q)) found))%R.
Proof.
  intros Hl Hb Hpos H1 H2. pose proof (least_valid _ Hl) as Hp.
  destruct (incorporate_run pick b x w Hp Hb H1 H2) as (b' & found & Hb' & Hrun & Hne & Hf & HN & G).
  destruct (C34_topk pick (bs_cost b) (piece_cost b) 2 x.1 x.2 Hl (bs_additive b)) as (found' & Hrun' & _ & Hnd & Hlen & Hsort & Hout).
  { intros a a' p. by apply piece_cost_pos. }
  rewrite Hrun in Hrun'. injection Hrun' as <-.
  assert (forall q, aligns q x.1 x.2 -> Forall known q) as Hkn by (intros q Hq; by eapply aligns_known).
  assert (forall q q', aligns q x.1 x.2 -> aligns q' x.1 x.2 -> (cost_of (bs_cost b) q <= cost_of (bs_cost b) q')%R -> (p_searched b q' <= p_searched b q)%R) as Hcmp.
  { intros q q' Hq Hq' Hle. destruct (searched_cost b q Hb Hpos (Hkn q Hq)) as [E B]. destruct (searched_cost b q' Hb Hpos (Hkn q' Hq')) as [E' B'].
    rewrite E, E' in Hle. destruct (Rle_lt_dec (p_searched b q') (p_searched b q)) as [|Hlt]; [done|]. apply ln_increasing in Hlt; [lra|done]. }
  assert (forall a, a ∈ found -> exp (a_cost a) = (/ p_searched b (a_pieces a))%R) as He.
  { intros a Ha. destruct (Hf a Ha) as [Hal ->]. apply exp_cost; auto. }
  exists b', (map a_pieces found). split_and!; [done| |by rewrite map_length|done| | | |done|].
  - rewrite map_length. destruct found; [done|cbn; lia].
  - intros q (a & -> & Ha)%elem_of_list_fmap. by apply Hf.
  - clear -Hsort Hf Hcmp. induction Hsort as [|a l Hs IH Hall]; cbn [map]; constructor.
    + apply IH. intros a' Ha'. apply Hf. by right.
    + apply Forall_forall. intros q (a' & -> & Ha')%elem_of_list_fmap. rewrite Forall_forall in Hall. specialize (Hall a' Ha').
      destruct (Hf a) as [A1 A2]; [by left|]. destruct (Hf a') as [B1 B2]; [by right|]. apply Hcmp; [done|done|]. by rewrite <- A2, <- B2.
  - intros q Hq Hnot. destruct (Hout q Hq Hnot) as [Hl2 Hbest]. split; [by rewrite map_length|].
    intros q' (a & -> & Ha)%elem_of_list_fmap. destruct (Hf a Ha) as [A1 A2]. apply Hcmp; [done|done|]. rewrite <- A2. by apply Hbest.
  - assert (Rsum (map (fun a => exp (a_cost a)) found) = odds b (map a_pieces found)) as Eo.
    { unfold odds. rewrite map_map. by apply sum_ext. }
    assert (forall f : list piece -> R, Rsum (map (fun a => a.2 * f a.1)%R (weighted found)) =
      Rsum (map (fun q => / p_searched b q / odds b (map a_pieces found) * f q)%R (map a_pieces found))) as E.
    { intros f. unfold weighted. rewrite !map_map. cbn [fst snd]. apply sum_ext. intros a Ha. by rewrite (He a Ha), Eo. }
    eapply grown_ext; [exact G| |]; intros c d _ _; cbv beta;
      [by rewrite (E (fun q => times (c, d) (insertion_choices None q)))|by rewrite (E (fun q => times (c, d) (replacements q)))].
Qed.

(** ** One alignment only *)
Lemma aligns_nil_l q s : aligns q [] s -> q = map Ins s.
Proof.
  revert s. induction q as [|p q IH]; intros s (H1 & H2 & H3); [by subst s|]. unfold lefts, rights in H1, H2. cbn [map concat] in H1, H2.
  destruct p as [c|c|a c|c]; try discriminate H1. cbn [right_of left_of app] in *. subst s. cbn [map]. f_equal. apply IH.
  split_and!; [done|done|]. by apply Forall_inv_tail in H3.
Qed.
Lemma aligns_nil_r q s : aligns q s [] -> q = map Del s.
Proof.
  revert s. induction q as [|p q IH]; intros s (H1 & H2 & H3); [by subst s|]. unfold lefts, rights in H1, H2. cbn [map concat] in H1, H2.
  destruct p as [c|c|a c|c]; try discriminate H2. cbn [right_of left_of app] in *. subst s. cbn [map]. f_equal. apply IH.
  split_and!; [done|done|]. by apply Forall_inv_tail in H3.
Qed.
Lemma one_alignment x : x.1 = [] \/ x.2 = [] -> exists q, forall q', aligns q' x.1 x.2 -> q' = q.
Proof. intros [E|E]; rewrite E; [exists (map Ins x.2); intros q'; apply aligns_nil_l|exists (map Del x.1); intros q'; apply aligns_nil_r]. Qed.

(** ** One character each *)
Section pair.
  Context (a b : ascii) (Hab : a <> b).
  Definition pS : list piece := [Sub a b].
  Definition pDI : list piece := [Del a; Ins b].
  Definition pID : list piece := [Ins b; Del a].
  Lemma pair_aligns q : aligns q [a] [b] -> q = pS \/ q = pDI \/ q = pID.
  Proof.
    intros (H1 & H2 & H3). destruct q as [|p q]; [done|]. unfold lefts, rights in H1, H2. cbn [map concat] in H1, H2.
    destruct p as [c|c|c d|c]; cbn [left_of right_of app] in *.
    - injection H1 as -> H1. right; left. assert (aligns q [] [b]) as Hq by (split_and!; [done|done|by apply Forall_inv_tail in H3]). apply aligns_nil_l in Hq as ->. done.
    - injection H2 as -> H2. right; right. assert (aligns q [a] []) as Hq by (split_and!; [done|done|by apply Forall_inv_tail in H3]). apply aligns_nil_r in Hq as ->. done.
    - injection H1 as -> H1. injection H2 as -> H2. left. assert (aligns q [] []) as Hq by (split_and!; [done|done|by apply Forall_inv_tail in H3]). apply aligns_nil_l in Hq as ->. done.
    - injection H1 as -> H1. injection H2 as -> H2. done.
  Qed.
  Lemma pair_all : aligns pS [a] [b] /\ aligns pDI [a] [b] /\ aligns pID [a] [b].
  Proof. split_and!; split_and!; try done; repeat constructor; done. Qed.
  Lemma pair_run pick e w : least_pick pick -> bs_shape e -> bs_pos e -> printable a -> printable b ->
    (p_searched e pDI < p_searched e pS)%R -> (p_searched e pID < p_searched e pS)%R ->
    exists e' X, bs_incorporate pick e ([a], [b]) w = Ok e' /\ (X = pDI \/ X = pID) /\
      (p_searched e pDI <= p_searched e X)%R /\ (p_searched e pID <= p_searched e X)%R /\ (0 < p_searched e X)%R /\
      bs_N e' = (bs_N e + w)%R /\
      let s := (p_searched e X / (p_searched e pS + p_searched e X))%R in
      grown e e' (fun c d => w * (s * times (c, d) (insertion_choices None pS) + (1 - s) * times (c, d) (insertion_choices None X)))%R
                 (fun c d => w * (s * times (c, d) (replacements pS) + (1 - s) * times (c, d) (replacements X)))%R.
  Proof.
    intros Hl Hb Hpos Ha Hb' H1 H2. destruct pair_all as (A1 & A2 & A3).
    assert (printables [a]) as Pa by (apply List.Forall_cons; [done|apply List.Forall_nil]). assert (printables [b]) as Pb by (apply List.Forall_cons; [done|apply List.Forall_nil]).
    destruct (shares_run pick e ([a], [b]) w Hl Hb Hpos Pa Pb) as (e' & found & He' & Hlen & Hnd & Hal & _ & Hout & HN & G).
    cbn [fst snd] in *.
    assert (forall q, q ∈ found -> q = pS \/ q = pDI \/ q = pID) as Hin by (intros q Hq; by apply pair_aligns, Hal).
    assert (forall q, aligns q [a] [b] -> (0 < p_searched e q)%R) as B.
    { intros q Hq. eapply searched_cost; [done|done|]. by eapply aligns_known. }
    pose proof (B _ A1) as B1. pose proof (B _ A2) as B2. pose proof (B _ A3) as B3.
    assert (pS ∈ found) as HS.
    { destruct (decide (pS ∈ found)) as [|Hno]; [done|]. destruct (Hout pS A1 Hno) as [_ Hbest]. exfalso.
      destruct found as [|q found]; [cbn in Hlen; lia|]. specialize (Hbest q ltac:(by left)). destruct (Hin q ltac:(by left)) as [->|[->| ->]]; [|lra|lra]. apply Hno. by left. }
    assert (exists X, (found = [pS; X] \/ found = [X; pS]) /\ (X = pDI \/ X = pID) /\ (p_searched e pDI <= p_searched e X)%R /\ (p_searched e pID <= p_searched e X)%R) as (X & HX & HX' & HX1 & HX2).
    { assert (length found = 2) as Hl2.
      { destruct (decide (pDI ∈ found)) as [HD|HD]; [|by destruct (Hout pDI A2 HD)]. destruct (decide (pID ∈ found)) as [HI|HI]; [|by destruct (Hout pID A3 HI)].
        exfalso. assert (length [pS; pDI; pID] <= length found); [|cbn in *; lia].
        apply submseteq_length, NoDup_submseteq; [|intros q Hq; repeat (apply elem_of_cons in Hq as [->|Hq]; [done|]); by apply elem_of_nil in Hq].
        repeat constructor; rewrite ?elem_of_cons, ?elem_of_nil; unfold pS, pDI, pID; naive_solver. }
      destruct found as [|q1 [|q2 [|]]]; try discriminate Hl2. apply NoDup_cons in Hnd as [Hnd _].
      assert (exists X, ([q1; q2] = [pS; X] \/ [q1; q2] = [X; pS]) /\ X ∈ [q1; q2] /\ X <> pS) as (X & HX & HXin & HXne).
      { apply elem_of_cons in HS as [<-|HS]; [exists q2|apply elem_of_list_singleton in HS as <-; exists q1].
        - split_and!; [by left|right; left|]. intros ->. apply Hnd. left.
        - split_and!; [by right|left|]. intros ->. apply Hnd. left. }
      exists X. split; [done|]. destruct (Hin X HXin) as [->|HX2]; [done|]. split; [done|].
      split; [destruct (decide (pDI ∈ [q1; q2])) as [HD|HD]; [|by apply Hout]|destruct (decide (pID ∈ [q1; q2])) as [HD|HD]; [|by apply Hout]].
      - assert (X = pDI) as ->; [|lra]. destruct HX as [E|E]; injection E as -> ->; repeat (apply elem_of_cons in HD as [HD|HD]; [done|]); by apply elem_of_nil in HD.
      - assert (X = pID) as ->; [|lra]. destruct HX as [E|E]; injection E as -> ->; repeat (apply elem_of_cons in HD as [HD|HD]; [done|]); by apply elem_of_nil in HD. }
    assert (0 < p_searched e X)%R as BX by (destruct HX' as [->| ->]; done).
    exists e', X. split_and!; [done|done|done|done|done|done|]. cbv zeta.
    eapply grown_ext; [exact G| |]; intros c d _ _; cbv beta; unfold odds, Rsum; destruct HX as [->| ->]; cbn [map foldr]; field; lra.
  Qed.
End pair.
