(** Samples and proposals of the string emission [bigram]. *)
From Coq Require Import ZArith Reals Ascii String Lra.
From stdpp Require Import list gmap sorting.
From Coq Require Import Lia.
From Verif Require Import M_base M_text M_math M_dist M_distributions M_align M_bigram_emis
  S_math S_align S_bigram_emis P_base P_math P_align T_align P_bigram_emis P_bigram_costs P_bigram_reach P_bigram_totals P_bigram_shares.
Local Open Scope nat_scope.

(** ** Samples *)
Lemma dc_sample_range d r : table_ok d -> exists k r', dc_sample d r = (k, r') /\ (0 <= k < Z.of_nat bs_contexts)%Z /\
  (r = [] -> k = 0%Z /\ r' = []) /\ (r <> [] -> S (length r') = length r).
Proof.
  intros (Hl & _). unfold dc_sample. unfold dc_sample_weights. rewrite fmap_length, Hl. destruct (choose_index bs_contexts r) as [i r'] eqn:E.
  exists (Z.of_nat i), r'. split; [done|]. pose proof (choose_index_lt _ _ _ _ E ltac:(done)). split; [lia|].
  unfold choose_index in E. split.
  - intros ->. cbn in E. by injection E as <- <-.
  - intros Hr. destruct r as [|x r]; [done|]. cbn [draw] in E. by injection E as _ <-.
Qed.
Lemma insertions_ok b ctx : bs_shape b -> choice_ok ctx -> forall fuel out r, length r < fuel -> printables out ->
  exists out' r', bs_insertions fuel b ctx out r = Ok (out', r') /\ printables out'.
Proof.
  intros Hb Hc. induction fuel as [|fuel IH]; intros out r Hf Ho; [lia|]. cbn [bs_insertions].
  destruct (table_at (bs_ins b) (bs_index_of ctx) (proj1 Hb) (ctx_range _ Hc)) as (d & -> & _ & Hd). cbn [obind].
  destruct (dc_sample_range d r Hd) as (k & r' & -> & Hk & H0 & H1). destruct (choice_code k Hk) as [Hck _].
  destruct (bs_char k) as [c|] eqn:E; [|by eauto]. apply IH.
  - destruct r as [|x r]; [|specialize (H1 ltac:(done)); lia]. destruct (H0 eq_refl) as [-> _]. by vm_compute in E.
  - apply Forall_app. split; [done|]. apply List.Forall_cons; [exact Hck|apply List.Forall_nil].
Qed.
Lemma corrupt_fold b : bs_shape b -> forall clean out ctx r, printables clean -> printables out -> choice_ok ctx ->
  exists out' ctx' r', foldM (bs_corrupt_char b) (out, ctx, r) clean = Ok (out', ctx', r') /\ printables out' /\ choice_ok ctx'.
Proof.
  intros Hb. induction clean as [|c clean IH]; intros out ctx r Hcl Ho Hx; [by eexists _, _, _|].
  apply Forall_cons in Hcl as [Hc Hcl]. cbn [foldM]. unfold bs_corrupt_char at 1.
  destruct (insertions_ok b ctx Hb Hx (S (length r)) out r) as (out1 & r1 & -> & Ho1); [lia|done|]. cbn [obind].
  destruct (table_at (bs_sub b) (bs_index c) (proj2 Hb)) as (d & -> & _ & Hd); [pose proof (idx_range _ Hc); lia|]. cbn [obind].
  destruct (dc_sample_range d r1 Hd) as (k & r2 & -> & Hk & _). destruct (choice_code k Hk) as [Hck _]. cbn [obind].
  apply IH; [done| |exact Hc]. apply Forall_app. split; [done|]. destruct (bs_char k) as [c'|]; cbn [option_list]; [|apply List.Forall_nil].
  apply List.Forall_cons; [exact Hck|apply List.Forall_nil].
Qed.
Lemma corrupt_ok b clean r : bs_shape b -> printables clean -> exists out r', bs_corrupt b clean r = Ok (out, r') /\ printables out.
Proof.
  intros Hb Hc. unfold bs_corrupt. destruct (corrupt_fold b Hb clean [] None r Hc) as (out & ctx & r1 & -> & Ho & Hx); [apply List.Forall_nil|done|].
  cbn [obind]. apply insertions_ok; [done|done|lia|done].
Qed.

(** Full support: any alignment can be sampled. *)
Definition code (o : option ascii) : nat := Z.to_nat (bs_index_of o).
Lemma sample_code d o r : table_ok d -> choice_ok o -> exists k, dc_sample d (code o :: r) = (k, r) /\ bs_char k = o.
Proof.
  intros (Hl & _) Ho. pose proof (ctx_range _ Ho) as Hr. unfold dc_sample, dc_sample_weights. rewrite fmap_length, Hl. unfold choose_index. cbn [draw].
  exists (bs_index_of o). split; [|by apply choice_decode]. f_equal. unfold code, bs_contexts in *. rewrite Nat.mod_small by lia. lia.
Qed.
Lemma insertions_code b ctx s : bs_shape b -> choice_ok ctx -> printables s -> forall fuel out r, length s < fuel ->
  bs_insertions fuel b ctx out (map (fun c => code (Some c)) s ++ code None :: r) = Ok (out ++ s, r).
Proof.
  intros Hb Hx. destruct (table_at (bs_ins b) (bs_index_of ctx) (proj1 Hb) (ctx_range _ Hx)) as (d & Ed & _ & Hd).
  induction s as [|c s IH]; intros Hs fuel out r Hf; (destruct fuel as [|fuel]; [cbn in Hf; lia|]); cbn [bs_insertions]; rewrite Ed; cbn [obind map app].
  - destruct (sample_code d None r Hd ltac:(done)) as (k & -> & ->). by rewrite app_nil_r.
  - apply Forall_cons in Hs as [Hc Hs]. destruct (sample_code d (Some c) (map (fun c => code (Some c)) s ++ code None :: r) Hd Hc) as (k & -> & ->).
    rewrite IH; [|done|cbn in Hf; lia]. by rewrite <- app_assoc.
Qed.
Lemma delete_all b : bs_shape b -> forall clean out ctx r, printables clean -> choice_ok ctx -> exists ctx', choice_ok ctx' /\
  foldM (bs_corrupt_char b) (out, ctx, concat (map (fun _ => [code None; code None]) clean) ++ r) clean = Ok (out, ctx', r).
Proof.
  intros Hb. induction clean as [|c clean IH]; intros out ctx r Hcl Hx; [by exists ctx|].
  apply Forall_cons in Hcl as [Hc Hcl]. destruct (IH out (Some c) r Hcl Hc) as (ctx' & Hx' & E). exists ctx'. split; [done|].
  cbn [foldM map concat app]. unfold bs_corrupt_char at 1.
  pose proof (insertions_code b ctx [] Hb Hx ltac:(apply List.Forall_nil) (S (length (code None :: code None :: concat (map (fun _ => [code None; code None]) clean) ++ r))) out
    (code None :: concat (map (fun _ => [code None; code None]) clean) ++ r) ltac:(cbn; lia)) as E1. cbn [map app] in E1. rewrite E1. cbn [obind].
  destruct (table_at (bs_sub b) (bs_index c) (proj2 Hb)) as (d & -> & _ & Hd); [pose proof (idx_range _ Hc); lia|]. cbn [obind].
  destruct (sample_code d None (concat (map (fun _ => [code None; code None]) clean) ++ r) Hd ltac:(done)) as (k & -> & ->). cbn [obind option_list].
  by rewrite !app_nil_r.
Qed.
Lemma corrupt_any b clean dirty : bs_shape b -> printables clean -> printables dirty -> exists r, bs_corrupt b clean r = Ok (dirty, []).
Proof.
  intros Hb Hc Hd. exists (concat (map (fun _ => [code None; code None]) clean) ++ map (fun c => code (Some c)) dirty ++ [code None]).
  unfold bs_corrupt. destruct (delete_all b Hb clean [] None (map (fun c => code (Some c)) dirty ++ [code None]) Hc ltac:(done)) as (ctx & Hx & E).
  unfold rng in *.  rewrite E. cbn [obind].
  rewrite insertions_code; [done|done|done|done|]. rewrite app_length, map_length. cbn. lia.
Qed.

(** ** Votes *)
Lemma ln_weighted p p' w w' : (0 < p)%R -> (0 < p')%R -> (0 < w)%R -> (0 < w')%R -> (ln p + ln w < ln p' + ln w' <-> p * w < p' * w')%R.
Proof.
  intros. rewrite <- !ln_mult by done. split.
  - apply ln_lt_inv; by apply Rmult_lt_0_compat.
  - apply ln_increasing. by apply Rmult_lt_0_compat.
Qed.
Lemma Rlt_dec_iff {A} (a b c d : R) (x y : A) : (a < b <-> c < d)%R -> (if Rlt_dec a b then x else y) = (if Rlt_dec c d then x else y).
Proof. intros H. destruct (Rlt_dec a b), (Rlt_dec c d); tauto. Qed.
Lemma vote_fold b w1 w2 : bs_shape b -> bs_pos b -> (0 < w1)%R -> (0 < w2)%R -> forall ps clean ctx, Forall known ps -> choice_ok ctx ->
  exists ctx', foldM (bs_vote_piece b w1 w2) (clean, ctx) ps = Ok (clean ++ elected b w1 w2 ctx ps, ctx').
Proof.
  intros Hb Hp H1 H2. induction ps as [|p ps IH]; intros clean ctx Hk Hx; [exists ctx; cbn; by rewrite app_nil_r|].
  apply Forall_cons in Hk as [[Kl Kr] Hk]. cbn [foldM elected]. unfold bs_vote_piece at 1.
  assert (forall (o : option ascii) st, choice_ok o -> st = match o with Some c => Ok (clean ++ [c], Some c) | None => Ok (clean, ctx) end ->
    exists ctx', (let* st := st in foldM (bs_vote_piece b w1 w2) st ps) =
      Ok (clean ++ match o with Some c => c :: elected b w1 w2 (Some c) ps | None => elected b w1 w2 ctx ps end, ctx')) as Hstep.
  { intros [c|] st Ho ->; cbn [obind]; [|by apply IH]. destruct (IH (clean ++ [c]) (Some c) Hk Ho) as [ctx' E]. exists ctx'. by rewrite E, <- app_assoc. }
  destruct p as [c|c|c d|c]; cbn [left_of right_of] in Kl, Kr.
  - assert (printable c) as Kc by exact (proj1 (Forall_singleton _ _) Kl).
    destruct (p_replace_ok b c None Hb Hp Kc ltac:(done)) as [E1 [B1 _]]. change (bs_index_of None) with 0%Z in E1. rewrite E1. cbn [obind].
    destruct (p_insert_ok b ctx (Some c) Hb Hp Hx Kc) as [E2 [B2 _]]. change (bs_index_of (Some c)) with (bs_index c) in E2. rewrite E2. cbn [obind].
    rewrite (Rlt_dec_iff _ _ _ _ (Some c) None (ln_weighted (p_insert b ctx (Some c)) (p_replace b c None) w2 w1 B2 B1 H2 H1)).
    apply Hstep; [|done]. by destruct (Rlt_dec _ _).
  - assert (printable c) as Kc by exact (proj1 (Forall_singleton _ _) Kr).
    destruct (p_insert_ok b ctx (Some c) Hb Hp Hx Kc) as [E2 [B2 _]]. change (bs_index_of (Some c)) with (bs_index c) in E2. rewrite E2. cbn [obind].
    destruct (p_replace_ok b c None Hb Hp Kc ltac:(done)) as [E1 [B1 _]]. change (bs_index_of None) with 0%Z in E1. rewrite E1. cbn [obind].
    rewrite (Rlt_dec_iff _ _ _ _ (Some c) None (ln_weighted (p_insert b ctx (Some c)) (p_replace b c None) w1 w2 B2 B1 H1 H2)).
    apply Hstep; [|done]. by destruct (Rlt_dec _ _).
  - assert (printable c) as Kc by exact (proj1 (Forall_singleton _ _) Kl). assert (printable d) as Kd by exact (proj1 (Forall_singleton _ _) Kr).
    destruct (p_replace_ok b c (Some d) Hb Hp Kc Kd) as [E1 [B1 _]]. change (bs_index_of (Some d)) with (bs_index d) in E1. rewrite E1. cbn [obind].
    destruct (p_replace_ok b d (Some c) Hb Hp Kd Kc) as [E2 [B2 _]]. change (bs_index_of (Some c)) with (bs_index c) in E2. rewrite E2. cbn [obind].
    rewrite (Rlt_dec_iff _ _ _ _ c d (ln_weighted (p_replace b d (Some c)) (p_replace b c (Some d)) w2 w1 B2 B1 H2 H1)).
    destruct (Rlt_dec _ _); [by apply (Hstep (Some c) (Ok (clean ++ [c], Some c)))|by apply (Hstep (Some d) (Ok (clean ++ [d], Some d)))].
  - assert (printable c) as Kc by exact (proj1 (Forall_singleton _ _) Kl). cbn [obind]. by apply (Hstep (Some c) (Ok (clean ++ [c], Some c))).
Qed.
Lemma vote_run pick b s1 s2 w1 w2 : least_pick pick -> bs_shape b -> bs_pos b -> printables s1 -> printables s2 -> (0 < w1)%R -> (0 < w2)%R ->
  exists q, bs_vote pick b s1 s2 w1 w2 = Ok (elected b w1 w2 None q) /\ aligns q s1 s2 /\
    forall q', aligns q' s1 s2 -> (p_searched b q' <= p_searched b q)%R.
Proof.
  intros Hl Hb Hp H1 H2 W1 W2. unfold bs_vote. rewrite alignments_eq by done.
  destruct (C34_topk pick (bs_cost b) (piece_cost b) 1 s1 s2 Hl (bs_additive b)) as (found & Hrun & Hf & Hnd & Hlen & _ & Hout).
  { intros a a' p. by apply piece_cost_pos. }
  pose proof (topk_some _ _ 1 _ _ _ (least_valid _ Hl) ltac:(lia) Hrun) as Hne. rewrite Hrun. cbn [obind].
  destruct found as [|a [|]]; [done| |cbn in Hlen; lia]. cbn [lookup list_lookup idx_ obind].
  destruct (Hf a ltac:(by left)) as [Ha Ec].
  assert (forall q, aligns q s1 s2 -> Forall known q) as Hkn by (intros q Hq; by eapply aligns_known).
  destruct (vote_fold b w1 w2 Hb Hp W1 W2 (a_pieces a) [] None (Hkn _ Ha) ltac:(done)) as [ctx' ->]. cbn [obind app].
  exists (a_pieces a). split; [done|]. split; [done|]. intros q' Hq'.
  destruct (decide (q' = a_pieces a)) as [->|Hd]; [lra|]. destruct (Hout q' Hq') as [_ Hbest]; [cbn [map]; by rewrite elem_of_list_singleton|].
  specialize (Hbest a ltac:(by left)). rewrite Ec in Hbest.
  destruct (searched_cost b q' Hb Hp (Hkn _ Hq')) as [E B]. destruct (searched_cost b (a_pieces a) Hb Hp (Hkn _ Ha)) as [E' B']. rewrite E, E' in Hbest.
  destruct (Rle_lt_dec (p_searched b q') (p_searched b (a_pieces a))) as [|Hlt]; [done|]. apply ln_increasing in Hlt; [lra|done].
Qed.
(** Characters of the result. *)
Lemma elected_from b w1 w2 ps : forall before c, c ∈ elected b w1 w2 before ps -> c ∈ lefts ps \/ c ∈ rights ps.
Proof.
  induction ps as [|p ps IH]; intros before c Hc; [by apply elem_of_nil in Hc|]. unfold lefts, rights in *. cbn [map concat]. rewrite !elem_of_app.
  cbn [elected] in Hc.
  assert (forall o : option ascii, (forall x, o = Some x -> x ∈ left_of p \/ x ∈ right_of p) ->
    c ∈ match o with Some c => c :: elected b w1 w2 (Some c) ps | None => elected b w1 w2 before ps end ->
    (c ∈ left_of p \/ c ∈ concat (map left_of ps)) \/ (c ∈ right_of p \/ c ∈ concat (map right_of ps))) as Hstep.
  { intros [x|] Hx H; [apply elem_of_cons in H as [->|H]; [destruct (Hx x eq_refl); auto|]|]; apply IH in H as [H|H]; auto. }
  eapply Hstep; [|exact Hc]. intros x Hx. destruct p as [y|y|y z|y]; cbn [left_of right_of]; rewrite ?elem_of_list_singleton, ?elem_of_nil.
  - destruct (Rlt_dec _ _); [injection Hx as ->; by left|done].
  - destruct (Rlt_dec _ _); [injection Hx as ->; by right|done].
  - destruct (Rlt_dec _ _); injection Hx as ->; [by left|by right].
  - injection Hx as ->. by left.
Qed.
Lemma elected_length b w1 w2 ps : forall before, length (elected b w1 w2 before ps) <= length (lefts ps) + length (rights ps).
Proof.
  induction ps as [|p ps IH]; intros before; [cbn; lia|]. unfold lefts, rights in *. cbn [map concat]. rewrite !app_length. cbn [elected].
  assert (forall o : option ascii, length match o with Some c => c :: elected b w1 w2 (Some c) ps | None => elected b w1 w2 before ps end
    <= 1 + (length (concat (map left_of ps)) + length (concat (map right_of ps)))) as Hstep.
  { intros [x|]; cbn [length]; [specialize (IH (Some x))|specialize (IH before)]; lia. }
  etrans; [apply Hstep|]. destruct p; cbn [left_of right_of length]; lia.
Qed.
