(** The search for alignments finds the cheapest ones. *)
From Coq Require Import Reals Ascii String Lra.
From stdpp Require Import base list gmap sorting.
From Coq Require Import Lia.
From Verif Require Import M_base M_text M_align S_align P_base.
Local Open Scope nat_scope.

Global Instance piece_eq_dec : EqDecision piece. Proof. solve_decision. Defined.

Lemma lefts_app ps qs : lefts (ps ++ qs) = lefts ps ++ lefts qs.
Proof. unfold lefts. by rewrite map_app, concat_app. Qed.
Lemma rights_app ps qs : rights (ps ++ qs) = rights ps ++ rights qs.
Proof. unfold rights. by rewrite map_app, concat_app. Qed.
Lemma cost_of_snoc cost ps p : cost_of cost (ps ++ [p]) = cost (ps ++ [p]) (cost_of cost ps).
Proof.
  unfold cost_of. rewrite app_length. cbn [length]. rewrite Nat.add_1_r, seq_S, foldl_app. cbn [foldl plus].
  rewrite (take_ge (ps ++ [p])) by (rewrite app_length; cbn; lia). f_equal.
  assert (forall (l : list nat) c, (forall n, n ∈ l -> n < length ps) ->
    foldl (fun c n => cost (take (S n) (ps ++ [p])) c) c l = foldl (fun c n => cost (take (S n) ps) c) c l) as H.
  { induction l as [|n l IH]; intros c Hl; [done|]. cbn [foldl]. rewrite IH by (intros; apply Hl; by right).
    rewrite take_app_le by (apply Hl; left). done. }
  apply H. intros n [_ ?]%elem_of_seq. lia.
Qed.

Section search.
Context (cost : cost_function) (k : nat) (s1 s2 : text).

(** Beginnings of alignments. *)
Definition begun (ps : list piece) : Prop := lefts ps `prefix_of` s1 /\ rights ps `prefix_of` s2 /\ Forall proper ps.
Definition mk (ps : list piece) : alignment := Align (cost_of cost ps) (length (lefts ps)) (length (rights ps)) ps.
Definition place (ps : list piece) : nat * nat := (length (lefts ps), length (rights ps)).

Lemma begun_prefix ps qs : begun (ps ++ qs) -> begun ps.
Proof.
  intros (H1 & H2 & H3). rewrite lefts_app in H1. rewrite rights_app in H2. apply Forall_app in H3 as [H3 _].
  split_and!; [etrans; [by eexists|exact H1]|etrans; [by eexists|exact H2]|done].
Qed.
Lemma begun_same ps qs : begun ps -> begun qs -> place ps = place qs -> lefts ps = lefts qs /\ rights ps = rights qs.
Proof.
  intros ([a Ha] & [b Hb] & _) ([a' Ha'] & [b' Hb'] & _) [= H1 H2]. split.
  - rewrite Ha in Ha'. by apply app_inj_1 in Ha' as [? _].
  - rewrite Hb in Hb'. by apply app_inj_1 in Hb' as [? _].
Qed.
Lemma aligned_begun ps : aligns ps s1 s2 -> begun ps.
Proof. intros (H1 & H2 & H3). split_and!; [by rewrite H1|by rewrite H2|done]. Qed.

Definition grow (ps : list piece) : list (list piece) :=
  (match s1 !! length (lefts ps) with Some c => [ps ++ [Del c]] | None => [] end) ++
  (match s2 !! length (rights ps) with Some c => [ps ++ [Ins c]] | None => [] end) ++
  (match s1 !! length (lefts ps), s2 !! length (rights ps) with
   | Some c1, Some c2 => [ps ++ [if ceqb c1 c2 then Mat c1 else Sub c1 c2]] | _, _ => [] end).
Lemma continuations_grow ps : continuations cost s1 s2 (mk ps) = map mk (grow ps).
Proof.
  unfold continuations, push_deletion, push_insertion, push_pair, grow. cbn [a_pos1 a_pos2 mk a_pieces a_cost].
  assert (forall p, lefts (ps ++ [p]) = lefts ps ++ left_of p /\ rights (ps ++ [p]) = rights ps ++ right_of p) as H.
  { intros p. rewrite lefts_app, rights_app. unfold lefts, rights. cbn. by rewrite !app_nil_r. }
  assert (forall p, mk (ps ++ [p]) = Align (cost (ps ++ [p]) (cost_of cost ps)) (length (lefts ps) + length (left_of p)) (length (rights ps) + length (right_of p)) (ps ++ [p])) as Hmk.
  { intros p. unfold mk. rewrite cost_of_snoc. destruct (H p) as [-> ->]. by rewrite !app_length. }
  rewrite !map_app. f_equal; [|f_equal].
  - destruct (s1 !! length (lefts ps)); [|done]. cbn [map]. rewrite Hmk. cbn. by rewrite Nat.add_0_r, Nat.add_1_r.
  - destruct (s2 !! length (rights ps)); [|done]. cbn [map]. rewrite Hmk. cbn. by rewrite Nat.add_0_r, Nat.add_1_r.
  - destruct (s1 !! length (lefts ps)), (s2 !! length (rights ps)); [|done..]. cbn [map]. rewrite Hmk. destruct (ceqb _ _); cbn; by rewrite !Nat.add_1_r.
Qed.
Lemma prefix_snoc {A} (l t : list A) (x : A) : l `prefix_of` t -> l ++ [x] `prefix_of` t <-> t !! length l = Some x.
Proof.
  intros [u ->]. split.
  - intros [v Hv]. rewrite <- app_assoc in Hv. apply app_inv_head in Hv as ->. by rewrite lookup_app_r, Nat.sub_diag by lia.
  - rewrite lookup_app_r, Nat.sub_diag by lia. destruct u as [|y u]; [done|]. cbn. intros [= ->]. exists u. by rewrite <- app_assoc.
Qed.
Lemma ceqb_iff a b : ceqb a b = true <-> a = b.
Proof. unfold ceqb. apply bool_decide_eq_true. Qed.
Lemma grow_iff ps q : begun ps -> q ∈ grow ps <-> begun q /\ exists p, q = ps ++ [p].
Proof.
  intros Hb. pose proof Hb as (H1 & H2 & H3).
  assert (forall p, begun (ps ++ [p]) <-> (lefts ps ++ left_of p `prefix_of` s1) /\ (rights ps ++ right_of p `prefix_of` s2) /\ proper p) as Hs.
  { intros p. unfold begun. rewrite lefts_app, rights_app, Forall_app, Forall_singleton. unfold lefts at 2, rights at 2. cbn. rewrite !app_nil_r. tauto. }
  unfold grow. rewrite !elem_of_app. split.
  - intros [H|[H|H]].
    + destruct (s1 !! length (lefts ps)) as [c|] eqn:E; [|by apply elem_of_nil in H]. apply elem_of_list_singleton in H as ->. split; [|by eexists]. apply Hs. cbn.
      rewrite app_nil_r. split_and!; [by apply prefix_snoc|done|done].
    + destruct (s2 !! length (rights ps)) as [c|] eqn:E; [|by apply elem_of_nil in H]. apply elem_of_list_singleton in H as ->. split; [|by eexists]. apply Hs. cbn.
      rewrite app_nil_r. split_and!; [done|by apply prefix_snoc|done].
    + destruct (s1 !! length (lefts ps)) as [c1|] eqn:E1; [|by apply elem_of_nil in H]. destruct (s2 !! length (rights ps)) as [c2|] eqn:E2; [|by apply elem_of_nil in H].
      apply elem_of_list_singleton in H as ->. split; [|by eexists]. apply Hs. destruct (ceqb c1 c2) eqn:E; cbn.
      * apply ceqb_iff in E as <-. split_and!; [by apply prefix_snoc|by apply prefix_snoc|done].
      * split_and!; [by apply prefix_snoc|by apply prefix_snoc|]. intros ->. assert (ceqb c2 c2 = true) by by apply ceqb_iff. congruence.
  - intros [Hq [p ->]]. apply Hs in Hq as (Hl & Hr & Hp). destruct p as [c|c|a b|c]; cbn in Hl, Hr, Hp.
    + left. apply prefix_snoc in Hl; [|done]. rewrite Hl. by apply elem_of_list_singleton.
    + right; left. apply prefix_snoc in Hr; [|done]. rewrite Hr. by apply elem_of_list_singleton.
    + right; right. apply prefix_snoc in Hl; [|done]. apply prefix_snoc in Hr; [|done]. rewrite Hl, Hr. apply elem_of_list_singleton.
      destruct (ceqb a b) eqn:E; [by apply ceqb_iff in E|done].
    + right; right. apply prefix_snoc in Hl; [|done]. apply prefix_snoc in Hr; [|done]. rewrite Hl, Hr. apply elem_of_list_singleton.
      by rewrite (proj2 (ceqb_iff c c) eq_refl).
Qed.
Lemma grow_nodup ps : NoDup (grow ps).
Proof.
  unfold grow. assert (forall p q, p <> q -> ps ++ [p] <> ps ++ [q]) as H by (intros p q Hpq H; apply app_inv_head in H; congruence).
  destruct (s1 !! length (lefts ps)) as [c1|], (s2 !! length (rights ps)) as [c2|]; cbn [app]; [|apply NoDup_singleton..|constructor].
  apply NoDup_cons. split; [|apply NoDup_cons; split; [|apply NoDup_singleton]].
  - intros [E|[E|[]%elem_of_nil]%elem_of_cons]%elem_of_cons; [by apply H in E|]. destruct (ceqb c1 c2); by apply H in E.
  - intros E%elem_of_list_singleton. destruct (ceqb c1 c2); by apply H in E.
Qed.

(** ** The invariant of the search
    [hs]: the heap, [fs]: found, [xs]: continued, [ds]: dropped. *)
Definition num (c : nat * nat) (l : list (list piece)) : nat := length (filter (fun q => place q = c) l).
Definition goal : nat * nat := (length s1, length s2).
Definition cheaper (p q : list piece) : Prop := (cost_of cost p <= cost_of cost q)%R.
Record inv (hs fs xs ds : list (list piece)) (V : gmap (nat * nat) nat) : Prop := {
  i_begun : forall q, q ∈ hs ++ fs ++ xs ++ ds -> begun q;
  i_nodup : NoDup (hs ++ fs ++ xs ++ ds);
  i_root : [] ∈ hs ++ fs ++ xs ++ ds;
  i_child : forall q p, q ∈ xs -> begun (q ++ [p]) -> q ++ [p] ∈ hs ++ fs ++ xs ++ ds;
  i_parent : forall q p, q ++ [p] ∈ hs ++ fs ++ xs ++ ds -> q ∈ xs;
  i_done : forall q, q ∈ fs -> place q = goal;
  i_open : forall q, q ∈ xs -> place q <> goal;
  i_count : forall c, num c (fs ++ xs) = Nat.min k (default 0 (V !! c));
  i_full : forall d, d ∈ ds -> k <= default 0 (V !! place d) }.
Record inv_costs (hs fs xs ds : list (list piece)) : Prop := {
  i_dropped : forall d q, d ∈ ds -> q ∈ fs ++ xs -> place q = place d -> cheaper q d;
  i_cheap : forall e h, e ∈ fs ++ xs ++ ds -> h ∈ hs -> cheaper e h;
  i_sorted : StronglySorted cheaper fs }.
Definition growing : Prop := forall ps p, begun (ps ++ [p]) -> cheaper ps (ps ++ [p]).

Lemma inv_start : inv [[]] [] [] [] ∅ /\ inv_costs [[]] [] [] [].
Proof.
  split; split; cbn [app].
  - intros q ->%elem_of_list_singleton. split_and!; [apply prefix_nil..|constructor].
  - apply NoDup_singleton.
  - by left.
  - intros q p H. by apply elem_of_nil in H.
  - intros q p H%elem_of_list_singleton. by destruct q.
  - intros q H. by apply elem_of_nil in H.
  - intros q H. by apply elem_of_nil in H.
  - intros c. rewrite lookup_empty. cbn. by rewrite Nat.min_0_r.
  - intros q H. by apply elem_of_nil in H.
  - intros d q H. by apply elem_of_nil in H.
  - intros q h H. by apply elem_of_nil in H.
  - constructor.
Qed.
Lemma begun_bound q : begun q -> (place q).1 <= length s1 /\ (place q).2 <= length s2.
Proof. intros (H1%prefix_length & H2%prefix_length & _). done. Qed.
Lemma num_snoc c l q : num c (l ++ [q]) = num c l + (if decide (place q = c) then 1 else 0).
Proof. unfold num. rewrite filter_app, filter_cons, filter_nil, app_length. destruct (decide (place q = c)); done. Qed.
Lemma num_app c l l' : num c (l ++ l') = num c l + num c l'.
Proof. unfold num. by rewrite filter_app, app_length. Qed.
Lemma num_cons c q l : num c (q :: l) = num c l + (if decide (place q = c) then 1 else 0).
Proof. unfold num. rewrite filter_cons. destruct (decide (place q = c)); cbn; lia. Qed.

(** The three kinds of step; [a] is taken from the heap. *)
Lemma inv_drop a hs fs xs ds V :
  inv (a :: hs) fs xs ds V -> k <= default 0 (V !! place a) ->
  inv hs fs xs (a :: ds) (<[place a := S (default 0 (V !! place a))]> V).
Proof.
  intros [I1 I2 I3 I4 I5 I6 I7 I8 I9] Hk.
  assert (a :: hs ++ fs ++ xs ++ ds ≡ₚ hs ++ fs ++ xs ++ a :: ds) as HP.
  { rewrite !app_assoc. apply Permutation_middle. }
  cbn [app] in *. split.
  - intros q Hq. apply I1. by rewrite HP.
  - by rewrite <- HP.
  - by rewrite <- HP.
  - intros q p Hq Hb. rewrite <- HP. by apply I4.
  - intros q p Hq. rewrite <- HP in Hq. by eapply I5.
  - done.
  - done.
  - intros c. rewrite I8. destruct (decide (place a = c)) as [<-|Hne]; [rewrite lookup_insert; cbn; lia|by rewrite lookup_insert_ne].
  - intros d [->|Hd]%elem_of_cons; [rewrite lookup_insert; cbn; lia|]. destruct (decide (place a = place d)) as [E|Hne]; [rewrite E, lookup_insert; cbn; rewrite <- E; lia|].
    rewrite lookup_insert_ne by done. by apply I9.
Qed.
Lemma inv_found a hs fs xs ds V :
  inv (a :: hs) fs xs ds V -> default 0 (V !! place a) < k -> place a = goal ->
  inv hs (fs ++ [a]) xs ds (<[place a := S (default 0 (V !! place a))]> V).
Proof.
  intros [I1 I2 I3 I4 I5 I6 I7 I8 I9] Hk Hg.
  assert (a :: hs ++ fs ++ xs ++ ds ≡ₚ hs ++ (fs ++ [a]) ++ xs ++ ds) as HP.
  { rewrite <- app_assoc. cbn [app]. rewrite (app_assoc hs fs), (app_assoc hs fs). apply Permutation_middle. }
  cbn [app] in *. split.
  - intros q Hq. apply I1. by rewrite HP.
  - by rewrite <- HP.
  - by rewrite <- HP.
  - intros q p Hq Hb. rewrite <- HP. by apply I4.
  - intros q p Hq. rewrite <- HP in Hq. by eapply I5.
  - intros q [Hq|Hq%elem_of_list_singleton]%elem_of_app; [by apply I6|by subst].
  - done.
  - intros c. rewrite num_app, num_snoc. specialize (I8 c). rewrite num_app in I8. destruct (decide (place a = c)) as [<-|Hne]; [rewrite lookup_insert; cbn; lia|rewrite lookup_insert_ne by done; lia].
  - intros d Hd. specialize (I9 d Hd). destruct (decide (place a = place d)) as [E|Hne]; [rewrite E in *; lia|]. by rewrite lookup_insert_ne.
Qed.
Lemma inv_grow a hs fs xs ds V :
  inv (a :: hs) fs xs ds V -> default 0 (V !! place a) < k -> place a <> goal ->
  inv (hs ++ grow a) fs (a :: xs) ds (<[place a := S (default 0 (V !! place a))]> V).
Proof.
  intros [I1 I2 I3 I4 I5 I6 I7 I8 I9] Hk Hg.
  assert (begun a) as Hba by (apply I1; by left).
  assert ((a :: hs ++ fs ++ xs ++ ds) ++ grow a ≡ₚ (hs ++ grow a) ++ fs ++ (a :: xs) ++ ds) as HP.
  { etrans; [apply Permutation_app_comm|]. rewrite (Permutation_app_comm hs (grow a)), <- app_assoc. apply Permutation_app_head.
    rewrite (app_assoc hs fs ((a :: xs) ++ ds)). cbn [app]. rewrite <- Permutation_middle. by rewrite app_assoc. }
  cbn [app] in *. split.
  - intros q Hq. rewrite <- HP in Hq. apply elem_of_cons in Hq as [->|Hq]; [done|]. apply elem_of_app in Hq as [Hq|Hq]; [apply I1; by right|]. by apply grow_iff in Hq as [? _].
  - rewrite <- HP. rewrite app_comm_cons. apply NoDup_app. split_and!; [done| |apply grow_nodup]. intros q Hq Hgr. apply grow_iff in Hgr as [_ [p ->]]; [|done].
    apply I5 in Hq. apply NoDup_cons in I2 as [Hn _]. apply Hn. rewrite !elem_of_app. tauto.
  - rewrite <- HP. rewrite app_comm_cons. apply elem_of_app. by left.
  - intros q p Hq Hb. rewrite <- HP. rewrite app_comm_cons. apply elem_of_app. apply elem_of_cons in Hq as [->|Hq]; [right; apply grow_iff; eauto|left; by apply I4].
  - intros q p Hq. rewrite <- HP in Hq. rewrite app_comm_cons in Hq. apply elem_of_app in Hq as [Hq|Hq]; [right; by eapply I5|].
    apply grow_iff in Hq as [_ [p' E]]; [|done]. apply app_inj_2 in E as [-> _]; [left|done].
  - done.
  - intros q [->|Hq]%elem_of_cons; [done|by apply I7].
  - intros c. rewrite num_app, num_cons. specialize (I8 c). rewrite num_app in I8. destruct (decide (place a = c)) as [<-|Hne]; [rewrite lookup_insert; cbn; lia|rewrite lookup_insert_ne by done; lia].
  - intros d Hd. specialize (I9 d Hd). destruct (decide (place a = place d)) as [E|Hne]; [rewrite E in *; lia|]. by rewrite lookup_insert_ne.
Qed.

Lemma costs_drop a hs fs xs ds V : inv (a :: hs) fs xs ds V -> inv_costs (a :: hs) fs xs ds -> (forall h, h ∈ hs -> cheaper a h) ->
  inv_costs hs fs xs (a :: ds).
Proof.
  intros Hi [C1 C2 C3] Ha. split; [| |done].
  - intros d q [->|Hd]%elem_of_cons Hq E; [|by apply C1]. apply C2; [|by left]. rewrite app_assoc. apply elem_of_app. by left.
  - intros e h He Hh. assert (e = a \/ e ∈ fs ++ xs ++ ds) as [->|He'].
    { rewrite !elem_of_app, elem_of_cons in *. tauto. }
    + by apply Ha.
    + apply C2; [done|by right].
Qed.
Lemma sorted_snoc (fs : list (list piece)) a : StronglySorted cheaper fs -> (forall f, f ∈ fs -> cheaper f a) -> StronglySorted cheaper (fs ++ [a]).
Proof.
  induction 1 as [|f fs Hs IH Hf]; intros Ha; cbn [app]; [constructor; [constructor|constructor]|]. constructor.
  - apply IH. intros f' Hf'. apply Ha. by right.
  - apply Forall_app. split; [done|]. apply Forall_singleton. apply Ha. by left.
Qed.
Lemma costs_found a hs fs xs ds V : inv (a :: hs) fs xs ds V -> default 0 (V !! place a) < k -> inv_costs (a :: hs) fs xs ds -> (forall h, h ∈ hs -> cheaper a h) ->
  inv_costs hs (fs ++ [a]) xs ds.
Proof.
  intros Hi Hk [C1 C2 C3] Ha. split.
  - intros d q Hd Hq E. assert (q = a \/ q ∈ fs ++ xs) as [->|Hq'].
    { rewrite !elem_of_app, elem_of_list_singleton in *. tauto. }
    + apply (i_full _ _ _ _ _ Hi) in Hd. rewrite <- E in Hd. lia.
    + by apply C1.
  - intros e h He Hh. assert (e = a \/ e ∈ fs ++ xs ++ ds) as [->|He'].
    { rewrite !elem_of_app, elem_of_list_singleton in *. tauto. }
    + by apply Ha.
    + apply C2; [done|by right].
  - apply sorted_snoc; [done|]. intros f Hf. apply C2; [apply elem_of_app; by left|by left].
Qed.
Lemma costs_grow a hs fs xs ds V : growing -> inv (a :: hs) fs xs ds V -> default 0 (V !! place a) < k -> inv_costs (a :: hs) fs xs ds -> (forall h, h ∈ hs -> cheaper a h) ->
  inv_costs (hs ++ grow a) fs (a :: xs) ds.
Proof.
  intros Hg Hi Hk [C1 C2 C3] Ha. assert (begun a) as Hba by (apply (i_begun _ _ _ _ _ Hi); by left). split; [| |done].
  - intros d q Hd Hq E. assert (q = a \/ q ∈ fs ++ xs) as [->|Hq'].
    { rewrite !elem_of_app, elem_of_cons in *. tauto. }
    + apply (i_full _ _ _ _ _ Hi) in Hd. rewrite <- E in Hd. lia.
    + by apply C1.
  - intros e h He [Hh|Hh]%elem_of_app.
    + assert (e = a \/ e ∈ fs ++ xs ++ ds) as [->|He'].
      { rewrite !elem_of_app, elem_of_cons in *. cbn [app]. rewrite ?elem_of_cons, ?elem_of_app in *. tauto. }
      * by apply Ha.
      * apply C2; [done|by right].
    + apply grow_iff in Hh as [Hbh [p ->]]; [|done]. unfold cheaper. apply Rle_trans with (cost_of cost a); [|apply Hg; exact Hbh].
      assert (e = a \/ e ∈ fs ++ xs ++ ds) as [->|He'].
      { rewrite !elem_of_app, elem_of_cons in *. cbn [app]. rewrite ?elem_of_cons, ?elem_of_app in *. tauto. }
      * lra.
      * apply C2; [done|by left].
Qed.

(** ** The loop *)
Lemma inv_perm hs hs' fs xs ds V : hs ≡ₚ hs' -> inv hs fs xs ds V -> inv hs' fs xs ds V.
Proof.
  intros HP [I1 I2 I3 I4 I5 I6 I7 I8 I9]. assert (hs ++ fs ++ xs ++ ds ≡ₚ hs' ++ fs ++ xs ++ ds) as HP' by by rewrite HP. split; [..|done|done|done|done].
  - intros q Hq. apply I1. by rewrite HP'.
  - by rewrite <- HP'.
  - by rewrite <- HP'.
  - intros q p Hq Hb. rewrite <- HP'. by apply I4.
  - intros q p Hq. rewrite <- HP' in Hq. by eapply I5.
Qed.
Lemma costs_perm hs hs' fs xs ds : hs ≡ₚ hs' -> inv_costs hs fs xs ds -> inv_costs hs' fs xs ds.
Proof. intros HP [C1 C2 C3]. split; [done| |done]. intros e h He Hh. rewrite <- HP in Hh. by apply C2. Qed.

Definition cells : list (nat * nat) := a ← seq 0 (S (length s1)); b ← seq 0 (S (length s2)); [(a, b)].
Lemma cells_iff a b : (a, b) ∈ cells <-> a <= length s1 /\ b <= length s2.
Proof.
  unfold cells. rewrite elem_of_list_bind. split.
  - intros (x & (y & E%elem_of_list_singleton & Hy%elem_of_seq)%elem_of_list_bind & Hx%elem_of_seq). inversion E; subst. lia.
  - intros [Ha Hb]. exists a. split; [|apply elem_of_seq; lia]. apply elem_of_list_bind. exists b. split; [by apply elem_of_list_singleton|apply elem_of_seq; lia].
Qed.
Lemma nodup_product (l l' : list nat) : NoDup l -> NoDup l' -> NoDup (a ← l; b ← l'; [(a, b)]).
Proof.
  intros Hl Hl'. induction Hl as [|a l Ha Hl IH]; [constructor|]. cbn [mbind list_bind]. apply NoDup_app. split_and!; [| |exact IH].
  - clear -Hl'. induction Hl' as [|b l' Hb Hl' IH]; [constructor|]. cbn. apply NoDup_cons. split; [|exact IH].
    intros (y & E%elem_of_list_singleton & Hy)%elem_of_list_bind. by inversion E; subst.
  - intros x (y & ->%elem_of_list_singleton & Hy)%elem_of_list_bind (a' & (y' & E%elem_of_list_singleton & Hy')%elem_of_list_bind & Ha')%elem_of_list_bind. by inversion E; subst.
Qed.
Lemma length_product (l l' : list nat) : length (a ← l; b ← l'; [(a, b)]) = length l * length l'.
Proof.
  induction l as [|a l IH]; [done|]. cbn [mbind list_bind length]. rewrite app_length, IH. cbn. f_equal.
  clear. induction l' as [|b l' IH]; [done|]. cbn. f_equal. exact IH.
Qed.
Definition work_on (l : list (nat * nat)) (V : gmap (nat * nat) nat) : nat := sum_list_with (fun c => k - default 0 (V !! c)) l.
Lemma work_other l V c n : c ∉ l -> work_on l (<[c := n]> V) = work_on l V.
Proof.
  induction l as [|x l IH]; intros Hc; [done|]. unfold work_on in *. cbn [sum_list_with]. rewrite IH by (intros ?; apply Hc; by right).
  rewrite lookup_insert_ne; [done|]. intros ->. apply Hc. left.
Qed.
Lemma work_step l V c : NoDup l -> c ∈ l ->
  work_on l V = work_on l (<[c := S (default 0 (V !! c))]> V) + (if decide (default 0 (V !! c) < k) then 1 else 0).
Proof.
  induction 1 as [|x l Hx Hl IH]; intros Hc; [by apply elem_of_nil in Hc|]. apply elem_of_cons in Hc as [->|Hc].
  - unfold work_on at 1 2. cbn [sum_list_with]. pose proof (work_other l V x (S (default 0 (V !! x))) Hx) as HW. unfold work_on in HW. rewrite HW.
    rewrite lookup_insert. cbn [default from_option id]. change (Datatypes.id (S (default 0 (V !! x)))) with (S (default 0 (V !! x))). destruct (decide _); lia.
  - specialize (IH Hc). unfold work_on in *. cbn [sum_list_with]. rewrite lookup_insert_ne by (intros ->; done). lia.
Qed.
Lemma work_start : work_on cells ∅ = k * (S (length s1) * S (length s2)).
Proof.
  assert (forall l, work_on l ∅ = k * length l) as H.
  { induction l as [|x l IH]; [cbn; lia|]. unfold work_on in *. cbn [sum_list_with length]. rewrite IH, lookup_empty. cbn. lia. }
  rewrite H. unfold cells. by rewrite length_product, !seq_length.
Qed.
Lemma cells_nodup : NoDup cells.
Proof. apply nodup_product; apply NoDup_seq. Qed.
Lemma grow_length q : length (grow q) <= 3.
Proof. unfold grow. destruct (s1 !! _), (s2 !! _); cbn; lia. Qed.
Lemma delete_map {A B} (f : A -> B) i (l : list A) : delete i (map f l) = map f (delete i l).
Proof. revert i. induction l as [|x l IH]; intros [|i]; [done..|]. cbn. by f_equal. Qed.

Lemma loop_spec pick : (forall heap, heap <> [] -> is_Some (heap !! pick heap)) ->
  forall fuel hs fs xs ds V, inv hs fs xs ds V -> length fs <= k -> 4 * work_on cells V + length hs < fuel ->
  exists hs' fs' xs' ds' V', topk_loop fuel pick cost k s1 s2 (map mk hs) V (map mk fs) = Ok (map mk fs') /\
    inv hs' fs' xs' ds' V' /\ length fs' <= k /\ (length fs' = k \/ hs' = []) /\
    (growing -> least_pick pick -> inv_costs hs fs xs ds -> inv_costs hs' fs' xs' ds').
Proof.
  intros Hpick. induction fuel as [|fuel IH]; intros hs fs xs ds V Hi Hle Hfuel; [lia|]. cbn [topk_loop]. rewrite !map_length.
  destruct (length fs <? k) eqn:E1; cbn [andb].
  2:{ apply Nat.ltb_ge in E1. exists hs, fs, xs, ds, V. split_and!; [done|done|done|left; lia|done]. }
  destruct (0 <? length hs) eqn:E2.
  2:{ apply Nat.ltb_ge in E2. exists hs, fs, xs, ds, V. split_and!; [done|done|done|right; destruct hs; [done|cbn in E2; lia]|done]. }
  apply Nat.ltb_lt in E1, E2.
  assert (map mk hs <> []) as Hne by (destruct hs; [cbn in E2; lia|done]).
  destruct (Hpick _ Hne) as [x Hx]. remember (pick (map mk hs)) as i eqn:Ei. rewrite Hx. cbn [idx_ obind].
  pose proof Hx as Hx'. rewrite list_lookup_fmap in Hx'. apply fmap_Some in Hx' as (a & Ha & ->). cbn [mk a_pos1 a_pos2].
  fold (place a). rewrite delete_map. pose proof (delete_Permutation _ _ _ Ha) as HP.
  pose proof (inv_perm _ _ _ _ _ _ HP Hi) as Hi'.
  assert (begun a) as Hba by (apply (i_begun _ _ _ _ _ Hi'); by left).
  assert (place a ∈ cells) as Hcell. { destruct (begun_bound _ Hba). destruct (place a) as [u v]. by apply cells_iff. }
  pose proof (work_step _ V _ cells_nodup Hcell) as HW.
  assert (length hs = S (length (delete i hs))) as HL by (rewrite HP at 1; done).
  assert (least_pick pick -> forall h, h ∈ delete i hs -> cheaper a h) as Hleast.
  { intros Hl h Hh. destruct (Hl _ Hne) as (b & Hb & Hbb). rewrite <- Ei, Hx in Hb. injection Hb as <-.
    apply (Hbb (mk h)). apply elem_of_list_fmap. exists h. split; [done|]. rewrite HP. by right. }
  destruct (k <? S (default 0 (V !! place a))) eqn:E3; [apply Nat.ltb_lt in E3|apply Nat.ltb_ge in E3].
  - edestruct (IH (delete i hs) fs xs (a :: ds)) as (hs' & fs' & xs' & ds' & V' & Hrun & Hinv & Hk & Hend & Hc); [apply inv_drop; [done|lia]|done| |].
    { destruct (decide _); lia. }
    exists hs', fs', xs', ds', V'. split_and!; [exact Hrun|done|done|done|]. intros Hg Hl Hcs. apply Hc; [done|done|].
    eapply costs_drop; [done|by eapply costs_perm|by apply Hleast].
  - assert ((length (lefts a) =? length s1) && (length (rights a) =? length s2) = bool_decide (place a = goal)) as ->.
    { unfold place, goal. destruct (Nat.eqb_spec (length (lefts a)) (length s1)) as [e1|e1]; destruct (Nat.eqb_spec (length (rights a)) (length s2)) as [e2|e2]; cbn [andb]; symmetry;
        [apply bool_decide_eq_true; congruence|apply bool_decide_eq_false; congruence..]. }
    destruct (bool_decide_reflect (place a = goal)) as [Hg|Hg].
    + assert (map mk fs ++ [mk a] = map mk (fs ++ [a])) as -> by by rewrite map_app.
      edestruct (IH (delete i hs) (fs ++ [a]) xs ds) as (hs' & fs' & xs' & ds' & V' & Hrun & Hinv & Hk & Hend & Hc); [apply inv_found; [done|lia|done]|rewrite app_length; cbn; lia| |].
      { destruct (decide _); lia. }
      exists hs', fs', xs', ds', V'. split_and!; [exact Hrun|done|done|done|]. intros Hgr Hl Hcs. apply Hc; [done|done|].
      eapply costs_found; [done|lia|by eapply costs_perm|by apply Hleast].
    + fold (mk a). rewrite continuations_grow, <- map_app.
      edestruct (IH (delete i hs ++ grow a) fs (a :: xs) ds) as (hs' & fs' & xs' & ds' & V' & Hrun & Hinv & Hk & Hend & Hc); [apply inv_grow; [done|lia|done]|done| |].
      { pose proof (grow_length a). rewrite app_length. destruct (decide _); lia. }
      exists hs', fs', xs', ds', V'. split_and!; [exact Hrun|done|done|done|]. intros Hgr Hl Hcs. apply Hc; [done|done|].
      eapply costs_grow; [done|done|lia|by eapply costs_perm|by apply Hleast].
Qed.

(** ** What is not found is not cheaper *)
Lemma place_app q r : place (q ++ r) = ((place q).1 + (place r).1, (place q).2 + (place r).2).
Proof. unfold place. cbn. by rewrite lefts_app, rights_app, !app_length. Qed.
Lemma goal_end q r : begun (q ++ r) -> place q = goal -> r = [].
Proof.
  intros Hb Hg. destruct r as [|p r]; [done|]. exfalso. assert (begun (q ++ [p])) as Hb' by (eapply (begun_prefix _ r); by rewrite <- app_assoc).
  apply begun_bound in Hb'. rewrite place_app, Hg in Hb'. unfold goal in Hb'. cbn in Hb'. destruct p; cbn in Hb'; lia.
Qed.
Lemma located hs fs xs ds V : inv hs fs xs ds V -> forall r e, e ∈ hs ++ fs ++ xs ++ ds -> begun (e ++ r) ->
  e ++ r ∈ fs ++ xs \/ exists r1 r2, r = r1 ++ r2 /\ (e ++ r1 ∈ hs \/ e ++ r1 ∈ ds).
Proof.
  intros Hi. induction r as [|p r IH]; intros e He Hb.
  - rewrite app_nil_r. rewrite !elem_of_app in *. destruct He as [He|[He|[He|He]]]; [|tauto|tauto|]; (right; exists [], []; split; [done|]; rewrite app_nil_r; tauto).
  - rewrite !elem_of_app in He. destruct He as [He|[He|[He|He]]].
    + right. exists [], (p :: r). split; [done|]. rewrite app_nil_r. tauto.
    + apply (i_done _ _ _ _ _ Hi) in He. by apply goal_end in Hb.
    + assert (e ++ p :: r = (e ++ [p]) ++ r) as E by by rewrite <- app_assoc. rewrite E in Hb |- *.
      destruct (IH (e ++ [p])) as [H|(r1 & r2 & -> & H)]; [apply (i_child _ _ _ _ _ Hi); [done|by apply begun_prefix in Hb]|done|by left|].
      right. exists (p :: r1), r2. split; [done|]. by rewrite <- app_assoc in H.
    + right. exists [], (p :: r). split; [done|]. rewrite app_nil_r. tauto.
Qed.

Context (w : text -> text -> piece -> R) (Hadd : additive cost w) (Hpos : forall a b p, (0 <= w a b p)%R).
Lemma additive_growing : growing.
Proof. intros ps p _. unfold cheaper. rewrite cost_of_snoc, Hadd. specialize (Hpos (lefts ps) (rights ps) p). lra. Qed.
Lemma cheaper_app q r : cheaper q (q ++ r).
Proof.
  induction r as [|p r IH] using rev_ind; [rewrite app_nil_r; unfold cheaper; lra|]. rewrite app_assoc. unfold cheaper in *.
  rewrite cost_of_snoc, Hadd. specialize (Hpos (lefts (q ++ r)) (rights (q ++ r)) p). lra.
Qed.
Lemma cost_swap q q' r : lefts q = lefts q' -> rights q = rights q' -> (cost_of cost (q ++ r) - cost_of cost q = cost_of cost (q' ++ r) - cost_of cost q')%R.
Proof.
  intros H1 H2. induction r as [|p r IH] using rev_ind; [rewrite !app_nil_r; lra|]. rewrite !app_assoc, !cost_of_snoc, !Hadd.
  rewrite !(lefts_app _ r), !(rights_app _ r), H1, H2. lra.
Qed.
Lemma begun_swap q q' r : begun q -> begun q' -> place q = place q' -> begun (q ++ r) -> begun (q' ++ r).
Proof.
  intros Hq Hq' E (H1 & H2 & H3). destruct (begun_same _ _ Hq Hq' E) as [El Er]. destruct Hq' as (_ & _ & H3'). unfold begun.
  rewrite lefts_app, rights_app, <- El, <- Er, <- lefts_app, <- rights_app. split_and!; [done|done|]. apply Forall_app in H3 as [_ H3]. by apply Forall_app.
Qed.
Lemma or_all {A} (P : A -> Prop) (Q : Prop) (l : list A) : (forall x, x ∈ l -> P x \/ Q) -> (forall x, x ∈ l -> P x) \/ Q.
Proof.
  induction l as [|x l IH]; intros H; [left; intros x Hx; by apply elem_of_nil in Hx|]. destruct (H x) as [Hx|]; [by left| |by right].
  destruct IH as [Hl|]; [intros y Hy; apply H; by right| |by right]. left. intros y [->|Hy]%elem_of_cons; auto.
Qed.
Lemma missing_costs hs fs xs ds V : inv hs fs xs ds V -> inv_costs hs fs xs ds -> length fs <= k -> length fs = k \/ hs = [] ->
  forall n r e, length r < n -> e ∈ hs ++ fs ++ xs ++ ds -> begun (e ++ r) -> place (e ++ r) = goal ->
  e ++ r ∈ fs \/ (length fs = k /\ forall f, f ∈ fs -> cheaper f (e ++ r)).
Proof.
  intros Hi Hc Hk Hend. induction n as [|n IH]; intros r e Hn He Hb Hg; [lia|].
  destruct (located _ _ _ _ _ Hi r e He Hb) as [H|(r1 & r2 & -> & [H|H])].
  - left. apply elem_of_app in H as [H|H]; [done|]. by apply (i_open _ _ _ _ _ Hi) in H.
  - right. destruct Hend as [Hend| ->]; [|by apply elem_of_nil in H]. split; [done|]. intros f Hf. rewrite app_assoc. unfold cheaper.
    apply Rle_trans with (cost_of cost (e ++ r1)); [|apply cheaper_app]. apply (i_cheap _ _ _ _ Hc); [apply elem_of_app; by left|done].
  - rewrite app_assoc in Hb, Hg |- *. set (q := e ++ r1) in *. set (L := filter (fun x => place x = place q) (fs ++ xs)).
    assert (length L = k) as HL.
    { pose proof (i_count _ _ _ _ _ Hi (place q)) as HL. pose proof (i_full _ _ _ _ _ Hi _ H) as HF. unfold num in HL. fold L in HL. lia. }
    assert (begun q) as Hbq by by apply begun_prefix in Hb.
    assert (NoDup (fs ++ xs)) as Hnd.
    { pose proof (i_nodup _ _ _ _ _ Hi) as Hnd. apply NoDup_app in Hnd as (_ & _ & Hnd). rewrite app_assoc in Hnd. by apply NoDup_app in Hnd as (Hnd & _ & _). }
    destruct r2 as [|p r2].
    + rewrite app_nil_r in *. right.
      assert (L = fs) as HLf.
      { unfold L. rewrite filter_app, Hg. assert (forall l : list (list piece), (forall x, x ∈ l -> place x = goal) -> filter (fun x => place x = goal) l = l) as F1.
        { induction l as [|x l IHl]; intros Hl; [done|]. rewrite filter_cons_True by (apply Hl; by left). f_equal. apply IHl. intros; apply Hl; by right. }
        assert (forall l : list (list piece), (forall x, x ∈ l -> place x <> goal) -> filter (fun x => place x = goal) l = []) as F2.
        { induction l as [|x l IHl]; intros Hl; [done|]. rewrite filter_cons_False by (apply Hl; by left). apply IHl. intros; apply Hl; by right. }
        rewrite F1 by apply (i_done _ _ _ _ _ Hi). rewrite F2 by apply (i_open _ _ _ _ _ Hi). by rewrite app_nil_r. }
      rewrite HLf in HL. split; [done|]. intros f Hf. apply (i_dropped _ _ _ _ Hc); [done|apply elem_of_app; by left|].
      by rewrite (i_done _ _ _ _ _ Hi f Hf).
    + assert (place q <> goal) as Hqg. { intros E. by pose proof (goal_end _ _ Hb E). }
      assert (forall x, x ∈ L -> x ∈ xs /\ place x = place q /\ begun x) as HinL.
      { intros x [Hp Hx]%elem_of_list_filter. assert (begun x) by (apply (i_begun _ _ _ _ _ Hi); rewrite !elem_of_app in *; tauto).
        apply elem_of_app in Hx as [Hx|Hx]; [|done]. apply (i_done _ _ _ _ _ Hi) in Hx. congruence. }
      assert (forall x, x ∈ L -> cheaper (x ++ p :: r2) (q ++ p :: r2)) as Hch.
      { intros x Hx. destruct (HinL x Hx) as (Hx1 & Hx2 & Hx3). destruct (begun_same _ _ Hx3 Hbq Hx2) as [El Er].
        pose proof (cost_swap _ _ (p :: r2) El Er). unfold cheaper. assert (cheaper x q) as Hxq; [|unfold cheaper in Hxq; lra].
        apply (i_dropped _ _ _ _ Hc); [done|apply elem_of_app; by right|done]. }
      destruct (or_all (fun x => x ++ p :: r2 ∈ fs) (length fs = k /\ forall f, f ∈ fs -> cheaper f (q ++ p :: r2)) L) as [Hall|Hex]; [| |by right].
      { intros x Hx. destruct (HinL x Hx) as (Hx1 & Hx2 & Hx3). assert (begun (x ++ p :: r2)) as Hbx by (apply (begun_swap q); [exact Hbq|exact Hx3|by rewrite Hx2|exact Hb]).
        assert (x ++ p :: r2 = (x ++ [p]) ++ r2) as E by by rewrite <- app_assoc.
        destruct (IH r2 (x ++ [p])) as [Hf|[Hf1 Hf2]]; [rewrite app_length in Hn; cbn in Hn; lia| |by rewrite <- E| | |].
        - apply (i_child _ _ _ _ _ Hi); [done|]. rewrite E in Hbx. by apply begun_prefix in Hbx.
        - rewrite <- E. rewrite place_app, Hx2, <- place_app. done.
        - left. by rewrite E.
        - right. split; [done|]. intros f Hf. unfold cheaper. eapply Rle_trans; [by apply Hf2|]. rewrite <- E. by apply Hch. }
      right. set (L' := map (fun x => x ++ p :: r2) L).
      assert (NoDup L') as HndL'.
      { apply NoDup_fmap_2; [intros x y Hxy; by apply app_inv_tail in Hxy|]. by apply NoDup_filter. }
      assert (L' ⊆+ fs) as Hsub.
      { apply NoDup_submseteq; [done|]. intros y (x & -> & Hx)%elem_of_list_fmap. by apply Hall. }
      assert (length L' = k) as HL' by (unfold L'; by rewrite map_length).
      assert (L' ≡ₚ fs) as HP by (apply submseteq_Permutation_length_le; [|done]; lia).
      split; [rewrite <- HP; done|]. intros f Hf. rewrite <- HP in Hf. apply elem_of_list_fmap in Hf as (x & -> & Hx). by apply Hch.
Qed.
End search.

(** ** The results of the search *)
Lemma least_valid pick : least_pick pick -> valid_pick pick.
Proof. intros H heap Hne. destruct (H heap Hne) as (a & Ha & _). by eexists. Qed.
Lemma begun_goal s1 s2 q : begun s1 s2 q /\ place q = goal s1 s2 <-> aligns q s1 s2.
Proof.
  split.
  - intros [([a Ha] & [b Hb] & Hp) [= H1 H2]]. split_and!; [| |done].
    + destruct a as [|x a]; [by rewrite app_nil_r in Ha|]. rewrite Ha, app_length in H1. cbn in H1. lia.
    + destruct b as [|x b]; [by rewrite app_nil_r in Hb|]. rewrite Hb, app_length in H2. cbn in H2. lia.
  - intros H. split; [by apply aligned_begun|]. destruct H as (H1 & H2 & _). unfold place, goal. by rewrite H1, H2.
Qed.
Lemma topk_run pick cost k s1 s2 : valid_pick pick -> exists hs fs xs ds V,
  topk_alignments pick k s1 s2 cost = Ok (map (mk cost) fs) /\ inv k s1 s2 hs fs xs ds V /\ length fs <= k /\ (length fs = k \/ hs = []) /\
  (growing cost s1 s2 -> least_pick pick -> inv_costs cost hs fs xs ds).
Proof.
  intros Hp. destruct (inv_start cost k s1 s2) as [Hi Hc].
  destruct (loop_spec cost k s1 s2 pick Hp (topk_fuel k s1 s2) _ _ _ _ _ Hi) as (hs & fs & xs & ds & V & Hrun & H1 & H2 & H3 & H4); [cbn; lia| |].
  - rewrite work_start. unfold topk_fuel. cbn [length]. lia.
  - exists hs, fs, xs, ds, V. split_and!; [exact Hrun|done|done|done|]. auto.
Qed.
Lemma map_pieces cost fs : map a_pieces (map (mk cost) fs) = fs.
Proof. rewrite map_map. cbn. apply map_id. Qed.
Lemma inv_found_aligns k s1 s2 hs fs xs ds V : inv k s1 s2 hs fs xs ds V -> NoDup fs /\ forall q, q ∈ fs -> aligns q s1 s2.
Proof.
  intros Hi. split.
  - pose proof (i_nodup _ _ _ _ _ _ _ _ Hi) as H. apply NoDup_app in H as (_ & _ & H). by apply NoDup_app in H as (H & _ & _).
  - intros q Hq. apply begun_goal. split; [apply (i_begun _ _ _ _ _ _ _ _ Hi); rewrite !elem_of_app; tauto|by apply (i_done _ _ _ _ _ _ _ _ Hi)].
Qed.
Lemma sorted_map cost fs : StronglySorted (cheaper cost) fs -> StronglySorted (fun a b => (a_cost a <= a_cost b)%R) (map (mk cost) fs).
Proof.
  induction 1 as [|f fs Hs IH Hf]; cbn [map]; constructor; [done|]. apply Forall_forall. intros y (x & -> & Hx)%elem_of_list_fmap.
  by apply (proj1 (Forall_forall _ _) Hf).
Qed.
Lemma topk_missing pick cost w k s1 s2 hs fs xs ds V q :
  additive cost w -> (forall a b p, (0 <= w a b p)%R) -> inv k s1 s2 hs fs xs ds V -> inv_costs cost hs fs xs ds ->
  length fs <= k -> length fs = k \/ hs = [] -> least_pick pick -> aligns q s1 s2 -> q ∉ fs ->
  length fs = k /\ forall f, f ∈ fs -> cheaper cost f q.
Proof.
  intros Hadd Hpos Hi Hc Hk Hend Hl [Hb Hg]%begun_goal Hq.
  destruct (missing_costs cost k s1 s2 w Hadd Hpos _ _ _ _ _ Hi Hc Hk Hend (S (length q)) q []) as [H|H]; [lia|apply (i_root _ _ _ _ _ _ _ _ Hi)|done|done|by cbn in H|done].
Qed.

(** Every two strings have an alignment. *)
Lemma some_alignment s1 s2 : aligns (map Del s1 ++ map Ins s2) s1 s2.
Proof.
  split_and!.
  - rewrite lefts_app. unfold lefts. rewrite !map_map. cbn [left_of]. induction s1 as [|c s1 IH]; cbn; [|by f_equal]. by induction s2.
  - rewrite rights_app. unfold rights. rewrite !map_map. cbn [right_of].
    assert (concat (map (fun x : ascii => []) s1) = @nil ascii) as -> by by induction s1. cbn. induction s2 as [|c s2 IH]; cbn; [done|by f_equal].
  - apply Forall_app. split; apply Forall_map, Forall_true; done.
Qed.

(** ** Edit distance *)
Lemma edits_snoc ps p : edits (ps ++ [p]) = edits ps + (match p with Mat _ => 0 | _ => 1 end).
Proof. induction ps as [|x ps IH]; cbn; [by destruct p|]. unfold edits in IH. rewrite IH. destruct x; lia. Qed.
Definition edit_weight (a b : text) (p : piece) : R := match p with Mat _ => 0%R | _ => 1%R end.
Lemma edit_additive : additive edit_distance edit_weight.
Proof. intros ps p c. unfold edit_distance. rewrite last_snoc. destruct p; cbn; lra. Qed.
Lemma edit_weight_nonneg a b p : (0 <= edit_weight a b p)%R.
Proof. destruct p; cbn; lra. Qed.
Lemma edit_cost ps : cost_of edit_distance ps = INR (edits ps).
Proof.
  induction ps as [|p ps IH] using rev_ind; [done|]. rewrite cost_of_snoc, edit_additive, edits_snoc, plus_INR, IH. destruct p; cbn; lra.
Qed.
Lemma lev_nil_r s1 : levenshtein s1 [] = length s1.
Proof. by destruct s1. Qed.
Lemma lev_nil_l s2 : levenshtein [] s2 = length s2.
Proof. by destruct s2. Qed.
Lemma lev_cons a s1 b s2 : levenshtein (a :: s1) (b :: s2) =
  Nat.min (S (levenshtein s1 (b :: s2))) (Nat.min (S (levenshtein (a :: s1) s2)) ((if decide (a = b) then 0 else 1) + levenshtein s1 s2)).
Proof. reflexivity. Qed.
Lemma lev_least ps : forall s1 s2, aligns ps s1 s2 -> levenshtein s1 s2 <= edits ps.
Proof.
  induction ps as [|p ps IH]; intros s1 s2 (H1 & H2 & H3).
  - cbn in H1, H2. subst. done.
  - apply Forall_cons in H3 as [Hp H3]. specialize (IH (lefts ps) (rights ps) (conj eq_refl (conj eq_refl H3))).
    unfold lefts, rights in *. cbn [map concat] in H1, H2. fold lefts rights in *. destruct p as [c|c|a b|c]; cbn [left_of right_of app] in H1, H2; subst; cbn [edits foldr]; fold (edits ps).
    + destruct (concat (map right_of ps)) as [|y r] eqn:E; [rewrite !lev_nil_r in *; cbn [length]; lia|]. rewrite lev_cons. lia.
    + destruct (concat (map left_of ps)) as [|y r] eqn:E; [rewrite !lev_nil_l in *; cbn [length]; lia|]. rewrite lev_cons. lia.
    + rewrite lev_cons. destruct (decide (a = b)); lia.
    + rewrite lev_cons. destruct (decide (c = c)); [lia|done].
Qed.
Lemma aligns_cons p ps s1 s2 : proper p -> aligns ps s1 s2 -> aligns (p :: ps) (left_of p ++ s1) (right_of p ++ s2).
Proof. intros Hp (H1 & H2 & H3). split_and!; [unfold lefts in *; cbn; by rewrite H1|unfold rights in *; cbn; by rewrite H2|by constructor]. Qed.
Lemma edits_all s1 s2 : edits (map Del s1 ++ map Ins s2) = length s1 + length s2.
Proof. induction s1 as [|c s1 IH]; cbn; [|unfold edits in IH; by rewrite IH]. induction s2 as [|c s2 IH]; cbn; [done|]. unfold edits in IH. by rewrite IH. Qed.
Lemma lev_attained s1 : forall s2, exists ps, aligns ps s1 s2 /\ edits ps = levenshtein s1 s2.
Proof.
  induction s1 as [|a s1 IH1]; intros s2; [exists (map Del [] ++ map Ins s2); split; [apply some_alignment|by rewrite edits_all, lev_nil_l]|].
  induction s2 as [|b s2 IH2]; [exists (map Del (a :: s1) ++ map Ins []); split; [apply some_alignment|rewrite edits_all, lev_nil_r; cbn; lia]|].
  destruct (IH1 (b :: s2)) as (p1 & Ha1 & He1), IH2 as (p2 & Ha2 & He2), (IH1 s2) as (p3 & Ha3 & He3). rewrite lev_cons.
  destruct (Nat.min_dec (S (levenshtein s1 (b :: s2))) (Nat.min (S (levenshtein (a :: s1) s2)) ((if decide (a = b) then 0 else 1) + levenshtein s1 s2))) as [E | E]; rewrite E; clear E.
  { exists (Del a :: p1). split; [exact (aligns_cons (Del a) _ _ _ Logic.I Ha1)|]. rewrite <- He1. reflexivity. }
  destruct (Nat.min_dec (S (levenshtein (a :: s1) s2)) ((if decide (a = b) then 0 else 1) + levenshtein s1 s2)) as [E | E]; rewrite E; clear E.
  { exists (Ins b :: p2). split; [exact (aligns_cons (Ins b) _ _ _ Logic.I Ha2)|]. rewrite <- He2. reflexivity. }
  destruct (decide (a = b)) as [<-|Hab].
  - exists (Mat a :: p3). split; [exact (aligns_cons (Mat a) _ _ _ Logic.I Ha3)|]. rewrite <- He3. reflexivity.
  - exists (Sub a b :: p3). split; [exact (aligns_cons (Sub a b) _ _ _ Hab Ha3)|]. rewrite <- He3. reflexivity.
Qed.
Lemma edit_first pick k s1 s2 : least_pick pick -> 0 < k -> exists a rest,
  topk_alignments pick k s1 s2 edit_distance = Ok (a :: rest) /\ a_cost a = INR (levenshtein s1 s2) /\ aligns (a_pieces a) s1 s2 /\ edits (a_pieces a) = levenshtein s1 s2.
Proof.
  intros Hl Hk. destruct (topk_run pick edit_distance k s1 s2 (least_valid _ Hl)) as (hs & fs & xs & ds & V & Hrun & Hi & Hle & Hend & Hc).
  specialize (Hc (additive_growing _ _ _ _ edit_additive edit_weight_nonneg) Hl).
  pose proof (fun q => topk_missing _ _ _ _ _ _ _ _ _ _ _ q edit_additive edit_weight_nonneg Hi Hc Hle Hend Hl) as Hmiss.
  destruct (inv_found_aligns _ _ _ _ _ _ _ _ Hi) as [_ Hal].
  destruct fs as [|f fs].
  - destruct (Hmiss _ (some_alignment s1 s2)) as [H _]; [apply not_elem_of_nil|]. cbn in H. lia.
  - exists (mk edit_distance f), (map (mk edit_distance) fs). split; [exact Hrun|]. cbn [mk a_cost a_pieces].
    assert (aligns f s1 s2) as Hf by (apply Hal; by left). rewrite edit_cost.
    assert (edits f = levenshtein s1 s2) as E; [|by rewrite E].
    pose proof (lev_least _ _ _ Hf). destruct (lev_attained s1 s2) as (q & Hq & Eq). assert (cheaper edit_distance f q) as Hfq.
    { destruct (decide (q ∈ f :: fs)) as [Hin|Hout]; [|destruct (Hmiss q Hq Hout) as [_ H']; apply H'; by left].
      apply elem_of_cons in Hin as [->|Hin]; [unfold cheaper; lra|]. pose proof (i_sorted _ _ _ _ _ Hc) as Hs. inversion Hs as [|?? _ HF]; subst.
      by apply (proj1 (Forall_forall _ _) HF). }
    unfold cheaper in Hfq. rewrite !edit_cost in Hfq. apply INR_le in Hfq. lia.
Qed.

(** ** The nearest string *)
Definition closest (x : text) (seen : list text) (best : text) : Prop :=
  exists n, seen !! n = Some best /\ forall m s, seen !! m = Some s -> levenshtein best x <= levenshtein s x /\ (m < n -> levenshtein best x < levenshtein s x).
Lemma nearest_fold pick x : least_pick pick -> forall strings seen best low,
  (match low with Some d => d = INR (levenshtein best x) /\ closest x seen best | None => seen = [] end) ->
  seen ++ strings <> [] ->
  exists best' low', foldM (nearest_step pick x) (best, low) strings = Ok (best', low') /\ closest x (seen ++ strings) best'.
Proof.
  intros Hl. induction strings as [|s strings IH]; intros seen best low Hlow Hne.
  - rewrite app_nil_r in *. exists best, low. split; [done|]. destruct low as [d|]; [by destruct Hlow|done].
  - cbn [foldM]. unfold nearest_step at 1. destruct (edit_first pick 1 s x Hl) as (a & rest & -> & Ha & _); [lia|]. cbn [obind lookup list_lookup idx_].
    assert (seen ++ s :: strings = (seen ++ [s]) ++ strings) as E by by rewrite <- app_assoc. rewrite E in Hne |- *. rewrite Ha.
    destruct low as [d|].
    + destruct Hlow as [-> (n & Hn & Hbest)]. pose proof (lookup_lt_Some _ _ _ Hn) as Hlt. destruct (Rlt_dec _ _) as [Hd|Hd].
      * apply INR_lt in Hd. cbn [obind]. apply IH; [|done]. split; [done|]. exists (length seen). split; [by rewrite lookup_app_r, Nat.sub_diag by lia|].
        intros m t Ht. apply lookup_app_Some in Ht as [Ht|[Hge Ht]].
        -- destruct (Hbest _ _ Ht). split; [lia|intros _; lia].
        -- apply list_lookup_singleton_Some in Ht as [Hm <-]. split; [done|lia].
      * assert (levenshtein best x <= levenshtein s x) as Hle. { apply INR_le. lra. }
        cbn [obind]. apply IH; [|done]. split; [done|]. exists n. split; [by apply lookup_app_l_Some|].
        intros m t Ht. apply lookup_app_Some in Ht as [Ht|[Hge Ht]]; [by apply Hbest|].
        apply list_lookup_singleton_Some in Ht as [Hm <-]. split; [done|lia].
    + subst seen. cbn [obind]. apply IH; [|done]. split; [done|]. exists 0. split; [done|]. intros m t Ht.
      apply list_lookup_singleton_Some in Ht as [-> <-]. split; [done|lia].
Qed.

(** A way to pick. *)
Fixpoint least_of (n : nat) (a : alignment) (l : list alignment) (i : nat) : nat :=
  match l with
  | [] => n
  | b :: l => if Rlt_dec (a_cost b) (a_cost a) then least_of i b l (S i) else least_of n a l (S i)
  end.
Definition first_least (heap : list alignment) : nat := match heap with [] => 0 | a :: l => least_of 0 a l 1 end.
Lemma least_of_spec l : forall done a n, done !! n = Some a -> (forall b, b ∈ done -> (a_cost a <= a_cost b)%R) ->
  exists c, (done ++ l) !! least_of n a l (length done) = Some c /\ forall b, b ∈ done ++ l -> (a_cost c <= a_cost b)%R.
Proof.
  induction l as [|b l IH]; intros seen a n Ha Hb; [exists a; by rewrite app_nil_r|]. cbn [least_of].
  assert (seen ++ b :: l = (seen ++ [b]) ++ l) as -> by by rewrite <- app_assoc.
  assert (S (length seen) = length (seen ++ [b])) as -> by (rewrite app_length; cbn; lia).
  destruct (Rlt_dec _ _) as [Hd|Hd]; apply IH.
  - by rewrite lookup_app_r, Nat.sub_diag by lia.
  - intros c [Hc|Hc%elem_of_list_singleton]%elem_of_app; [|subst c]; [specialize (Hb c Hc)|]; lra.
  - by apply lookup_app_l_Some.
  - intros c [Hc|Hc%elem_of_list_singleton]%elem_of_app; [|subst c]; [by apply Hb|lra].
Qed.
Lemma first_least_ok : least_pick first_least.
Proof.
  intros [|a l] Hne; [done|]. destruct (least_of_spec l [a] a 0) as (c & Hc & Hb); [done|intros b ->%elem_of_list_singleton; lra|].
  exists c. split; [exact Hc|exact Hb].
Qed.
