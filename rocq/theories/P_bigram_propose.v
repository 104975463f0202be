(** Rounds and tournaments of votes of the string emission [bigram]. *)
From Coq Require Import ZArith Reals Ascii String Lra.
From stdpp Require Import list gmap sorting.
From Coq Require Import Lia.
From Verif Require Import M_base M_text M_math M_dist M_distributions M_align M_bigram_emis
  S_math S_align S_bigram_emis P_base P_math P_align T_align P_bigram_emis P_bigram_costs P_bigram_reach P_bigram_totals P_bigram_shares P_bigram_undo T_bigram_emis P_bigram_vote.
Local Open Scope nat_scope.

Lemma list_two_ind {A} (P : list A -> Prop) : P [] -> (forall x, P [x]) -> (forall x y l, P l -> P (x :: y :: l)) -> forall l, P l.
Proof. intros H0 H1 H2. cut (forall l, P l /\ forall x, P (x :: l)); [intros H l; apply H|]. induction l as [|y l [IH1 IH2]]; [auto|]. split; [auto|]. intros x. auto. Qed.

Definition voter (Q : ascii -> Prop) (p : text * R) : Prop := printables p.1 /\ Forall Q p.1 /\ (0 < p.2)%R.
Lemma vote_voter pick b Q p q : least_pick pick -> bs_shape b -> bs_pos b -> voter Q p -> voter Q q ->
  exists s, bs_vote pick b p.1 q.1 p.2 q.2 = Ok s /\ voter Q (s, (p.2 + q.2)%R).
Proof.
  intros Hl Hb Hp (P1 & P2 & P3) (Q1 & Q2 & Q3). destruct (vote_run pick b p.1 q.1 p.2 q.2 Hl Hb Hp P1 Q1 P3 Q3) as (ps & E & (A1 & A2 & _) & _).
  eexists. split; [exact E|]. assert (forall c, c ∈ elected b p.2 q.2 None ps -> c ∈ p.1 \/ c ∈ q.1) as Hin by (rewrite <- A1, <- A2; apply elected_from).
  split_and!; cbn [fst snd]; [| |lra]; apply Forall_forall; intros c [Hc|Hc]%Hin; revert c Hc; by apply Forall_forall.
Qed.
Lemma round_ok pick b Q : least_pick pick -> bs_shape b -> bs_pos b -> forall l, Forall (voter Q) l ->
  exists l', bs_round pick b l = Ok l' /\ Forall (voter Q) l' /\ length l' = Nat.div2 (S (length l)).
Proof.
  intros Hl Hb Hp. apply (list_two_ind (fun l => Forall (voter Q) l -> exists l', bs_round pick b l = Ok l' /\ Forall (voter Q) l' /\ length l' = Nat.div2 (S (length l)))).
  - intros _. exists []. split; [done|]. split; [apply List.Forall_nil|done].
  - intros [s w] H. apply Forall_inv in H as (H1 & H2 & H3). exists [(s, 1%R)]. split; [done|]. split; [|done]. apply List.Forall_cons; [|apply List.Forall_nil]. split_and!; cbn [fst snd] in *; [done|done|lra].
  - intros p q l IH H. apply Forall_cons in H as [H1 H]. apply Forall_cons in H as [H2 H]. destruct (IH H) as (l' & E & H' & Hlen).
    destruct (vote_voter pick b Q p q Hl Hb Hp H1 H2) as (s & Es & Hs). cbn [bs_round]. rewrite Es. cbn [obind]. rewrite E. cbn [obind].
    eexists. split; [done|]. split; [by apply List.Forall_cons|]. cbn [length]. rewrite Hlen. done.
Qed.
Lemma tournament_ok pick b Q : least_pick pick -> bs_shape b -> bs_pos b -> forall fuel l, length l < fuel -> Forall (voter Q) l ->
  exists s, bs_tournament fuel pick b l = Ok s /\ printables s /\ Forall Q s.
Proof.
  intros Hl Hb Hp. induction fuel as [|fuel IH]; intros l Hf H; [lia|]. cbn [bs_tournament]. destruct l as [|p [|q l]].
  - exists []. split; [done|]. split; apply List.Forall_nil.
  - apply Forall_inv in H as (H1 & H2 & _). by exists p.1.
  - destruct (round_ok pick b Q Hl Hb Hp (p :: q :: l) H) as (l' & -> & H' & Hlen). cbn [obind]. apply IH; [|done].
    rewrite Hlen. cbn [length] in *. pose proof (Nat.div2_div (S (S (S (length l))))) as E. pose proof (Nat.div_lt_upper_bound (S (S (S (length l)))) 2 (S (S (length l))) ltac:(lia) ltac:(lia)). lia.
Qed.
Lemma propose_ok pick b l (Q : ascii -> Prop) : least_pick pick -> bs_shape b -> bs_pos b -> Forall printables l -> (forall s c, s ∈ l -> c ∈ s -> Q c) ->
  exists s, bs_propose pick b l = Ok s /\ printables s /\ Forall Q s.
Proof.
  intros Hl Hb Hp H HQ. unfold bs_propose. apply tournament_ok; [done|done|done|rewrite map_length; lia|].
  apply Forall_forall. intros p (s & -> & Hs)%elem_of_list_fmap. split_and!; cbn [fst snd]; [by eapply Forall_forall in H|apply Forall_forall; eauto|lra].
Qed.

(** ** Agreement *)
Definition kept (b : bse) (s : text) : Prop := forall c d, c ∈ s -> choice_ok d -> d <> Some c -> (p_replace b c d < p_replace b c (Some c))%R.
Definition chosen (first : option ascii) (s : text) : option ascii := match first with Some c => Some c | None => head s end.
Lemma searched_insert_le b : bs_shape b -> bs_pos b -> forall ps first, Forall known ps -> choice_ok first ->
  (0 < Rprod (map (fun e => p_insert b e.1 e.2) (search_choices first ps)) <= p_insert b (chosen first (lefts ps)) None ^ length (lefts ps))%R.
Proof.
  intros Hb Hp. induction ps as [|p ps IH]; intros first Hk Hx; [cbn; lra|]. apply Forall_cons in Hk as [[Kl Kr] Hk]. cbn [search_choices map Rprod foldr fst snd].
  fold (Rprod (map (fun e => p_insert b e.1 e.2) (search_choices (match first with Some c => Some c | None => head (left_of p) end) ps))).
  assert (choice_ok (match first with Some c => Some c | None => head (left_of p) end)) as Hx'.
  { destruct first as [c|]; [done|]. destruct p as [c|c|c d|c]; cbn [left_of head] in *; [exact (proj1 (Forall_singleton _ _) Kl)|done|exact (proj1 (Forall_singleton _ _) Kl)|exact (proj1 (Forall_singleton _ _) Kl)]. }
  destruct (IH _ Hk Hx') as [B1 B2]. unfold lefts in *. cbn [map concat]. rewrite app_length.
  assert (forall c, left_of p = [c] -> (match p with Ins c => Some c | _ => None end) = None ->
    (0 < p_insert b (match first with Some c => Some c | None => head (left_of p) end) (match p with Ins c => Some c | _ => None end) *
      Rprod (map (fun e => p_insert b e.1 e.2) (search_choices (match first with Some c => Some c | None => head (left_of p) end) ps)) <=
      p_insert b (chosen first (left_of p ++ concat (map left_of ps))) None ^ (length (left_of p) + length (concat (map left_of ps))))%R) as Hone.
  { intros c El Ei. rewrite Ei, El. cbn [head app length]. rewrite El in B1, B2, Hx'. cbn [head] in B1, B2, Hx'. set (ctx := match first with Some c => Some c | None => Some c end) in *.
    assert (chosen first (c :: concat (map left_of ps)) = ctx) as -> by (unfold chosen, ctx; by destruct first).
    assert (chosen ctx (concat (map left_of ps)) = ctx) as Ec by (unfold chosen, ctx; by destruct first). rewrite Ec in B2.
    destruct (p_insert_ok b ctx None Hb Hp Hx' ltac:(done)) as [_ [C1 C2]]. cbn [Nat.add pow]. split; [by apply Rmult_lt_0_compat|]. apply Rmult_le_compat_l; [lra|exact B2]. }
  destruct p as [c|c|c d|c]; [by apply (Hone c)| |by apply (Hone c)|by apply (Hone c)].
  cbn [left_of head app length Nat.add] in *. assert (match first with Some c => Some c | None => None end = first) as E by by destruct first. rewrite E in *.
  assert (printable c) as Kc by exact (proj1 (Forall_singleton _ _) Kr). destruct (p_insert_ok b first (Some c) Hb Hp Hx Kc) as [_ [C1 C2]].
  split; [by apply Rmult_lt_0_compat|]. eapply Rle_trans; [|exact B2]. rewrite <- (Rmult_1_l (Rprod _)) at 2. apply Rmult_le_compat_r; lra.
Qed.
Definition spoils (p : piece) : Prop := match p with Del _ | Sub _ _ => True | _ => False end.
Lemma searched_replace_le b s : bs_shape b -> bs_pos b -> kept b s -> printables s -> forall ps, Forall known ps -> Forall proper ps -> (forall c, c ∈ lefts ps -> c ∈ s) ->
  (0 < Rprod (map (fun e => p_replace b e.1 e.2) (replacements ps)) <= Rprod (map (fun c => p_replace b c (Some c)) (lefts ps)))%R /\
  (Exists spoils ps -> (Rprod (map (fun e => p_replace b e.1 e.2) (replacements ps)) < Rprod (map (fun c => p_replace b c (Some c)) (lefts ps)))%R).
Proof.
  intros Hb Hp Hkept Hs. induction ps as [|p ps IH]; intros Hk Hpr Hin.
  - unfold replacements, lefts, Rprod. cbn. split; [lra|]. intros H. inversion H.
  - apply Forall_cons in Hk as [[Kl Kr] Hk]. apply Forall_cons in Hpr as [Hpp Hpr].
    destruct IH as [[B1 B2] B3]; [done|done|intros c Hc; apply Hin; unfold lefts; cbn [map concat]; apply elem_of_app; by right|].
    unfold replacements, lefts in *. cbn [map concat]. rewrite !map_app, !Rprod_app. rewrite Exists_cons.
    set (A := Rprod (map (fun e => p_replace b e.1 e.2) (concat (map replacement ps)))) in *. set (B := Rprod (map (fun c => p_replace b c (Some c)) (concat (map left_of ps)))) in *.
    assert (forall c o, left_of p = [c] -> choice_ok o -> o <> Some c -> replacement p = [(c, o)] ->
      (0 < Rprod (map (fun e => p_replace b e.1 e.2) (replacement p)) * A < Rprod (map (fun c => p_replace b c (Some c)) (left_of p)) * B)%R) as Hbad.
    { intros c o El Ho Hne Er. rewrite El, Er. cbn [map Rprod foldr fst snd]. rewrite !Rmult_1_r. rewrite El in Kl.
      assert (printable c) as Kc by exact (proj1 (Forall_singleton _ _) Kl). destruct (p_replace_ok b c o Hb Hp Kc Ho) as [_ [C1 C2]].
      assert (c ∈ s) as Hcs by (apply Hin; cbn [map concat]; rewrite El; left). pose proof (Hkept c o Hcs Ho Hne) as C3.
      split; [by apply Rmult_lt_0_compat|]. apply Rlt_le_trans with (p_replace b c (Some c) * A)%R; [by apply Rmult_lt_compat_r|]. apply Rmult_le_compat_l; lra. }
    destruct p as [c|c|c d|c]; cbn [spoils].
    + destruct (Hbad c None eq_refl ltac:(done) ltac:(done) eq_refl). split; [lra|]. intros _. lra.
    + cbn [replacement left_of map Rprod foldr] in *. rewrite !Rmult_1_l. split; [lra|]. intros [[]|H]. by apply B3.
    + cbn [proper] in Hpp. destruct (Hbad c (Some d) eq_refl) as [? ?]; [exact (proj1 (Forall_singleton _ _) Kr)|intros [=]; done|done|]. split; [lra|]. intros _. lra.
    + cbn [replacement left_of map Rprod foldr fst snd] in *. rewrite !Rmult_1_r. assert (printable c) as Kc by exact (proj1 (Forall_singleton _ _) Kl).
      destruct (p_replace_ok b c (Some c) Hb Hp Kc Kc) as [_ [C1 C2]].
      split; [split; [by apply Rmult_lt_0_compat|apply Rmult_le_compat_l; lra]|]. intros [[]|H]. apply Rmult_lt_compat_l; [done|]. by apply B3.
Qed.
Lemma mats_searched b s : p_searched b (map Mat s) = (p_insert b (head s) None ^ length s * Rprod (map (fun c => p_replace b c (Some c)) s))%R.
Proof.
  unfold p_searched. f_equal.
  - assert (forall s first, Rprod (map (fun e => p_insert b e.1 e.2) (search_choices first (map Mat s))) = (p_insert b (chosen first s) None ^ length s)%R) as H; [|apply (H s None)].
    clear s. induction s as [|c s IH]; intros first; [done|]. cbn [map search_choices left_of head]. cbn [Rprod foldr map fst snd length pow].
    fold (Rprod (map (fun e => p_insert b e.1 e.2) (search_choices (match first with Some c => Some c | None => Some c end) (map Mat s)))). rewrite IH. by destruct first.
  - f_equal. unfold replacements. induction s as [|c s IH]; [done|]. cbn [map concat replacement app]. by rewrite IH.
Qed.
Lemma only_mats ps : length (lefts ps) = length (rights ps) -> ~ Exists spoils ps -> ps = map Mat (lefts ps).
Proof.
  assert (~ Exists spoils ps -> length (lefts ps) <= length (rights ps) /\ (length (lefts ps) = length (rights ps) -> ps = map Mat (lefts ps))) as H; [|intros; by apply H].
  induction ps as [|p ps IH]; intros Hn; [done|]. rewrite Exists_cons in Hn. destruct IH as [I1 I2]; [tauto|]. unfold lefts, rights in *. cbn [map concat]. rewrite !app_length.
  destruct p as [c|c|c d|c]; cbn [left_of right_of length app map spoils] in *; [tauto| |tauto|].
  - split; [lia|]. intros E. lia.
  - split; [lia|]. intros E. f_equal. apply I2. lia.
Qed.
Lemma elected_mats b w1 w2 s : forall before, elected b w1 w2 before (map Mat s) = s.
Proof. induction s as [|c s IH]; intros before; cbn [map elected]; [done|]. by rewrite IH. Qed.
Lemma mats_align s : aligns (map Mat s) s s.
Proof.
  unfold aligns, lefts, rights. split_and!; [| |].
  - induction s as [|c s IH]; cbn [map concat left_of app]; [done|by rewrite IH].
  - induction s as [|c s IH]; cbn [map concat right_of app]; [done|by rewrite IH].
  - apply Forall_forall. by intros p (c & -> & _)%elem_of_list_fmap.
Qed.
Lemma agree_vote pick b s w1 w2 : least_pick pick -> bs_shape b -> bs_pos b -> printables s -> kept b s -> (0 < w1)%R -> (0 < w2)%R -> bs_vote pick b s s w1 w2 = Ok s.
Proof.
  intros Hl Hb Hp Hs Hk W1 W2. destruct (vote_run pick b s s w1 w2 Hl Hb Hp Hs Hs W1 W2) as (q & -> & Hq & Hbest). f_equal.
  cut (q = map Mat s); [intros ->; apply elected_mats|]. pose proof Hq as (Q1 & Q2 & Q3).
  assert (Exists spoils q \/ ~ Exists spoils q) as [Hsp|Hsp].
  { assert (forall p, Decision (spoils p)) by (intros []; cbn; apply _). destruct (decide (Exists spoils q)); auto. }
  - exfalso. specialize (Hbest _ (mats_align s)). rewrite mats_searched in Hbest. unfold p_searched in Hbest. pose proof (aligns_known _ _ _ Hq Hs Hs) as Hkn.
    destruct (searched_insert_le b Hb Hp q None Hkn ltac:(done)) as [A1 A2]. destruct (searched_replace_le b s Hb Hp Hk Hs q Hkn Q3) as [[B1 B2] B3]; [by rewrite Q1|].
    specialize (B3 Hsp). rewrite Q1 in *. cbn [chosen] in A2.
    set (u := Rprod (map (fun e => p_insert b e.1 e.2) (search_choices None q))) in *. set (v := Rprod (map (fun e => p_replace b e.1 e.2) (replacements q))) in *.
    set (u' := (p_insert b (head s) None ^ length s)%R) in *. set (v' := Rprod (map (fun c => p_replace b c (Some c)) s)) in *.
    assert (u * v < u' * v')%R; [|lra]. apply Rle_lt_trans with (u' * v)%R; [apply Rmult_le_compat_r; lra|apply Rmult_lt_compat_l; lra].
  - rewrite <- Q1. apply only_mats; [|done]. by rewrite Q1, Q2.
Qed.
Lemma agree_round pick b s : least_pick pick -> bs_shape b -> bs_pos b -> printables s -> kept b s -> forall l, Forall (fun p => p.1 = s /\ (0 < p.2)%R) l ->
  exists l', bs_round pick b l = Ok l' /\ Forall (fun p => p.1 = s /\ (0 < p.2)%R) l' /\ length l' = Nat.div2 (S (length l)).
Proof.
  intros Hl Hb Hp Hs Hk. apply (list_two_ind (fun l => Forall (fun p => p.1 = s /\ (0 < p.2)%R) l -> exists l', bs_round pick b l = Ok l' /\ Forall (fun p => p.1 = s /\ (0 < p.2)%R) l' /\ length l' = Nat.div2 (S (length l)))).
  - intros _. exists []. split; [done|]. split; [apply List.Forall_nil|done].
  - intros [t w] H. apply Forall_inv in H as (H1 & H2). exists [(t, 1%R)]. split; [done|]. split; [|done]. apply List.Forall_cons; [|apply List.Forall_nil]. split; cbn [fst snd] in *; [done|lra].
  - intros [t w] [t' w'] l IH H. apply Forall_cons in H as [[H1 W1] H]. apply Forall_cons in H as [[H2 W2] H]. destruct (IH H) as (l' & E & H' & Hlen). cbn [fst snd] in *. subst t t'.
    cbn [bs_round fst snd]. rewrite (agree_vote pick b s w w') by done. cbn [obind]. rewrite E. cbn [obind].
    eexists. split; [done|]. split; [apply List.Forall_cons; [split; cbn [fst snd]; [done|lra]|done]|]. cbn [length]. by rewrite Hlen.
Qed.
Lemma agree_propose pick b s n : least_pick pick -> bs_shape b -> bs_pos b -> printables s -> kept b s -> bs_propose pick b (replicate (S n) s) = Ok s.
Proof.
  intros Hl Hb Hp Hs Hk. unfold bs_propose.
  assert (forall fuel l, length l < fuel -> l <> [] -> Forall (fun p => p.1 = s /\ (0 < p.2)%R) l -> bs_tournament fuel pick b l = Ok s) as H.
  { induction fuel as [|fuel IH]; intros l Hf Hne H; [lia|]. cbn [bs_tournament]. destruct l as [|p [|q l]]; [done|apply Forall_inv in H as [-> _]; done|].
    destruct (agree_round pick b s Hl Hb Hp Hs Hk (p :: q :: l) H) as (l' & -> & H' & Hlen). cbn [obind].
    pose proof (Nat.div2_div (S (S (S (length l))))) as E. pose proof (Nat.div_lt_upper_bound (S (S (S (length l)))) 2 (S (S (length l))) ltac:(lia) ltac:(lia)). cbn [length] in *.
    apply IH; [lia|intros ->; cbn in Hlen; lia|done]. }
  apply H; [rewrite map_length; lia|by cbn|]. apply Forall_forall. intros p (t & -> & Ht)%elem_of_list_fmap. apply elem_of_replicate in Ht as [-> _]. cbn. split; [done|lra].
Qed.
