(** What sampling does to a Bigram. *)
From stdpp Require Import list strings gmap.
From Coq Require Import ZArith Reals Lra Lia Ascii.
From Verif Require Import M_base M_math M_dist M_distributions S_math S_crp S_dist S_relation
  P_base P_math P_dist P_dirichlet P_normal P_bigram.
Local Open Scope R_scope.

Lemma char_val_of z : (0 <= z < 128)%Z -> char_val (char_of z) = z.
Proof.
  intros Hz. unfold char_val, char_of. rewrite Z.mod_small by lia.
  rewrite N_ascii_embedding by lia. rewrite Z2N.id by lia.
  by rewrite bool_decide_eq_true_2 by lia.
Qed.

Lemma pairs_of_snoc l i j : pairs_of (l ++ [i; j]) = pairs_of (l ++ [i]) ++ [(i, j)].
Proof.
  induction l as [|x l IH]; [done|]. destruct l as [|y l]; [done|].
  change (pairs_of ((x :: y :: l) ++ [i; j])) with ((x, y) :: pairs_of ((y :: l) ++ [i; j])).
  rewrite IH. done.
Qed.

Section sample.
  Context (ml : nat) (mn mx : Z) (a : R).
  Hypothesis Hmn : (0 <= mn)%Z.
  Hypothesis Hmx : (mx < 128)%Z.
  Hypothesis Hle : (mn <= mx)%Z.
  Let num := num_of mn mx.
  Let k := S num.

  Lemma index_to_char_of l i : (i < num)%nat ->
    exists c, bg_index_to_char (bg_of ml mn mx a l) i = Ok c /\ (mn <= char_val c <= mx)%Z /\
      Z.to_nat (char_val c - mn) = i.
  Proof.
    intros Hi. unfold num, num_of in Hi. unfold bg_index_to_char, bg_valid_char. cbn [bg_of bg_min_char bg_max_char].
    exists (char_of (Z.of_nat i + mn)). rewrite char_val_of by lia.
    rewrite bool_decide_eq_true_2 by lia. simpl. split; [done|lia].
  Qed.

  Lemma dc_sample_lt k' a' l r x r' : (0 < k')%nat -> dc_sample (dc_of k' a' l) r = (x, r') ->
    exists n, x = Z.of_nat n /\ (n < k')%nat.
  Proof.
    intros Hk. unfold dc_sample, dc_sample_weights. cbn [dc_of dc_counts dc_alpha]. rewrite fmap_length, count_list_length.
    destruct (choose_index k' r) as [i r1] eqn:E. intros [= <- <-]. apply choose_index_lt in E; [|lia]. eauto.
  Qed.

  (** The loop: [path] are the character indices it appends. *)
  Lemma sample_loop_spec l fuel cur acc P r cs ds r' : (cur <= num)%nat -> length acc <> ml \/ ml = 0%nat ->
    bg_sample_loop (bg_of ml mn mx a l) fuel cur acc (dists_of k a P) r = Ok (cs, ds, r') ->
    exists cs' path, cs = rev acc ++ cs' /\ chars_ok mn mx cs' /\ idxs mn cs' = path /\
      head (path ++ [num]) = Some cur /\
      ((length cs <> ml \/ ml = 0%nat) /\ ds = dists_of k a (pairs_of (path ++ [num]) ++ P) \/
       (length cs = ml /\ ml <> 0%nat) /\ path <> [] /\ ds = dists_of k a (pairs_of path ++ P)).
  Proof.
    revert cur acc P r. induction fuel as [|fuel IH]; intros cur acc P r Hcur Hacc E; cbn [bg_sample_loop] in E;
      change (bg_num_chars (bg_of ml mn mx a l)) with num in E.
    all: case_bool_decide as Hc; [injection E as <- <- <-; subst cur; exists [], []; rewrite app_nil_r;
      split; [done|]; split; [by constructor|]; split; [done|]; split; [done|]; left; split; [|done]; by rewrite rev_length|].
    { done. }
    destruct (index_to_char_of l cur) as (c & Hic & Hcv & Hci); [lia|]. rewrite Hic in E. cbn [obind] in E.
    change (bg_max_length (bg_of ml mn mx a l)) with ml in E. case_bool_decide as Hlen.
    { injection E as <- <- <-. exists [c], [cur]. split; [done|]. split; [by constructor|].
      split; [by simpl; rewrite Hci|]. split; [done|]. right. rewrite app_length, rev_length. simpl in Hlen |- *. split; [|done].
      split; [lia|]. lia. }
    rewrite dists_of_lookup in E by (unfold k; lia). cbn [obind idx_] in E.
    destruct (dc_sample _ r) as [nx r1] eqn:Es. apply dc_sample_lt in Es as (n & -> & Hn); [|unfold k; lia].
    rewrite Nat2Z.id in E. rewrite inc_pair_of in E by (unfold pair_ok, k in *; simpl; lia). cbn [obind] in E.
    apply IH in E as (cs' & path & -> & Hok & Hidx & Hhd & HE); [|unfold k in Hn; lia|by left].
    exists (c :: cs'), (cur :: path). split; [cbn [rev]; by rewrite <- app_assoc|].
    split; [by constructor|]. split; [unfold idxs in *; rewrite fmap_cons, Hidx, Hci; done|]. split; [done|].
    replace (rev (c :: acc) ++ cs') with (rev acc ++ c :: cs') in * by (simpl; by rewrite <- app_assoc).
    assert (forall q, head q = Some n -> (cur, n) :: pairs_of q = pairs_of (cur :: q)) as Hq.
    { intros [|y q] [= ->]. done. }
    destruct HE as [[Hl ->]|(Hl & Hne & ->)]; [left|right]; split; try done.
    - apply dists_of_perm. rewrite <- (app_comm_cons path), <- Hq by done. simpl. by rewrite Permutation_middle.
    - split; [done|]. apply dists_of_perm. rewrite <- Hq; [simpl; by rewrite Permutation_middle|].
      destruct path; [done|]. simpl in *. done.
  Qed.

  (** [sample] on a model holding the strings [l]: it leaves the model unchanged
      when the string is shorter than the maximum length; when the maximum is
      reached, one transition to the end symbol that was never added is removed. *)
  Lemma bg_sample_spec l r s b' r' : bg_sample (bg_of ml mn mx a l) r = Ok (s, b', r') ->
    if bool_decide (String.length s = ml /\ ml <> 0%nat) then
      exists c ds, last (String.list_ascii_of_string s) = Some c /\
        bg_inc_pair (-1) (bg_dists (bg_of ml mn mx a l)) (Z.to_nat (char_val c - mn), num) = Ok ds /\
        b' = bg_set_dists (bg_of ml mn mx a l) ds (len l)
    else b' = bg_of ml mn mx a l.
  Proof.
    intros E. unfold bg_sample in E. change (bg_num_chars (bg_of ml mn mx a l)) with num in E.
    cbn [bg_of bg_dists] in E. fold num in E. fold k in E.
    set (P := concat (trans mn mx <$> l)) in *.
    rewrite dists_of_lookup in E by (unfold k; lia). cbn [obind idx_] in E.
    destruct (dc_sample _ r) as [nx r1] eqn:Es. apply dc_sample_lt in Es as (n & -> & Hn); [|unfold k; lia].
    rewrite Nat2Z.id in E. rewrite inc_pair_of in E by (unfold pair_ok, k in *; simpl; lia). cbn [obind] in E.
    apply obind_Ok in E as ([[cs ds] r2] & E & Eu).
    change (Bigram_ a ml mn mx (dists_of k a P) (len l)) with (bg_of ml mn mx a l) in *.
    apply sample_loop_spec in E as (cs' & path & Hcs & Hok & Hidx & Hhd & HE);
      [|unfold k in Hn; lia|destruct ml; [by right|by left]].
    simpl rev in Hcs. simpl in Hcs. subst cs'.
    apply obind_Ok in Eu as (b1 & Eu & [= <- <- <-]).
    assert (String.list_ascii_of_string (String.string_of_list_ascii cs) = cs) as Hs
      by apply String.list_ascii_of_string_of_list_ascii.
    assert (String.length (String.string_of_list_ascii cs) = length cs) as Hlen.
    { clear. induction cs; simpl; congruence. }
    rewrite Hlen, Hs. unfold bg_unincorporate, bg_incorporate in Eu.
    destruct (_ && _) in Eu; [done|]. apply obind_Ok in Eu as (inds & Ei & Eu).
    apply string_to_indices_Ok in Ei as [_ ->]. rewrite Hs in Eu.
    change (bg_num_chars _) with num in Eu. cbn [bg_set_dists bg_of bg_min_char bg_dists] in Eu.
    rewrite Hidx in Eu.
    assert (forall q, head q = Some n -> pairs_of (num :: q) = (num, n) :: pairs_of q) as Hq.
    { intros [|y q] [= ->]. done. }
    rewrite (Hq (path ++ [num])) in Eu by done.
    assert (Forall (fun i => i < k)%nat path) as Hpk.
    { rewrite <- Hidx. eapply Forall_impl; [by apply idxs_lt|]. simpl. unfold k, num. lia. }
    assert (pair_ok k (num, n)) as Hpn by (unfold pair_ok, k in *; simpl; lia).
    destruct HE as [[Hl ->]|(Hl & Hne & ->)].
    - rewrite bool_decide_eq_false_2 by tauto.
      rewrite (dists_of_perm k a _ (((num, n) :: pairs_of (path ++ [num])) ++ P)) in Eu
        by (simpl; by rewrite Permutation_middle).
      rewrite uninc_pairs_of in Eu.
      2:{ constructor; [done|]. apply pairs_of_ok, Forall_app. split; [done|]. constructor; [unfold k; lia|done]. }
      cbn [obind] in Eu. injection Eu as <-. unfold bg_set_dists, bg_of. cbn. f_equal. lra.
    - rewrite bool_decide_eq_true_2 by tauto.
      destruct path as [|i path _] using rev_ind; [done|].
      assert (exists cs0 c, cs = cs0 ++ [c] /\ Z.to_nat (char_val c - mn) = i) as (cs0 & c & -> & Hci).
      { destruct cs as [|c cs0 _] using rev_ind; [by destruct path|].
        unfold idxs in Hidx. rewrite fmap_app in Hidx. apply app_inj_tail in Hidx as [_ Hi]. eauto. }
      rewrite <- app_assoc in Eu. change ([i] ++ [num]) with [i; num] in Eu. rewrite pairs_of_snoc in Eu. rewrite app_comm_cons, foldM_app in Eu.
      rewrite (dists_of_perm k a _ (((num, n) :: pairs_of (path ++ [i])) ++ P)) in Eu
        by (simpl; by rewrite Permutation_middle).
      rewrite uninc_pairs_of in Eu by (constructor; [done|by apply pairs_of_ok]).
      cbn [obind foldM] in Eu. apply obind_Ok in Eu as (ds & Eu & [= <-]).
      apply obind_Ok in Eu as (ds' & Eu & [= <-]).
      exists c, ds'. rewrite last_snoc, Hci. split; [done|]. split; [exact Eu|].
      unfold bg_set_dists, bg_of. cbn. f_equal. lra.
  Qed.

  (** With draws that always pick the first character, the maximum is reached. *)
  Lemma sample_loop_max l fuel acc P r : (length acc + fuel = ml)%nat -> fuel <> 0%nat ->
    Forall (fun x => x = 0%nat) r -> exists cs ds r',
    bg_sample_loop (bg_of ml mn mx a l) fuel 0%nat acc (dists_of k a P) r = Ok (cs, ds, r') /\ length cs = ml.
  Proof.
    intros Hml Hf Hr. revert acc P r Hml Hr. induction fuel as [|fuel IH]; intros acc P r Hml Hr; [done|].
    cbn [bg_sample_loop]. change (bg_num_chars (bg_of ml mn mx a l)) with num.
    assert (0 < num)%nat as Hn by (unfold num, num_of; lia).
    rewrite bool_decide_eq_false_2 by lia.
    destruct (index_to_char_of l 0 Hn) as (c & -> & _). cbn [obind].
    change (bg_max_length (bg_of ml mn mx a l)) with ml. case_bool_decide as Hl.
    { eexists _, _, _. split; [done|]. by rewrite rev_length. }
    rewrite dists_of_lookup by (unfold k; lia). cbn [obind idx_].
    unfold dc_sample, dc_sample_weights. cbn [dc_of dc_counts dc_alpha]. rewrite fmap_length, count_list_length.
    assert (forall r, Forall (fun x => x = 0%nat) r -> exists r', choose_index k r = (0%nat, r') /\ Forall (fun x => x = 0%nat) r') as Hch.
    { clear. intros r Hr. unfold choose_index, draw. unfold k. destruct Hr as [|x r Hx Hr]; simpl.
      - exists []. split; [|constructor]. by rewrite Nat.sub_diag.
      - exists r. split; [|done]. subst x. cbn. by rewrite Nat.sub_diag. }
    destruct (Hch r Hr) as (r1 & -> & Hr1). cbn [Z.to_nat Z.of_nat].
    rewrite inc_pair_of by (unfold pair_ok, k; simpl; lia). cbn [obind].
    simpl in Hl. apply IH; [lia|simpl; lia|done].
  Qed.
  Lemma bg_sample_max l : ml <> 0%nat -> exists s b' r',
    bg_sample (bg_of ml mn mx a l) [] = Ok (s, b', r') /\ String.length s = ml.
  Proof.
    intros Hml. unfold bg_sample. change (bg_num_chars (bg_of ml mn mx a l)) with num.
    cbn [bg_of bg_dists]. fold num. fold k. set (P := concat _).
    rewrite dists_of_lookup by (unfold k; lia). cbn [obind idx_].
    unfold dc_sample, dc_sample_weights. cbn [dc_of dc_counts dc_alpha]. rewrite fmap_length, count_list_length.
    assert (choose_index k [] = (0%nat, [])) as ->.
    { unfold choose_index, draw, k. simpl. by rewrite Nat.sub_diag. }
    cbn [Z.to_nat Z.of_nat].
    rewrite inc_pair_of by (unfold pair_ok, k; simpl; lia). cbn [obind bg_max_length].
    change (Bigram_ a ml mn mx (dists_of k a P) (len l)) with (bg_of ml mn mx a l).
    assert (forall X, match ml with 0%nat => X | S n => S n end = ml) as Hfu by (by destruct ml). rewrite Hfu.
    destruct (sample_loop_max l ml [] ((num, 0%nat) :: P) []) as (cs & ds & r' & E & Hl); [done|done|done|].
    change (Z.to_nat (Z.of_nat 0)) with 0%nat. rewrite E. cbn [obind].
    pose proof E as E2. apply sample_loop_spec in E2 as (cs' & path & Hcs & Hok & Hidx & Hhd & HE); [|lia|left; simpl; lia].
    simpl in Hcs. subst cs'.
    assert (String.list_ascii_of_string (String.string_of_list_ascii cs) = cs) as Hs
      by apply String.list_ascii_of_string_of_list_ascii.
    assert (String.length (String.string_of_list_ascii cs) = length cs) as Hlen.
    { clear. induction cs; simpl; congruence. }
    destruct HE as [[? _]|(_ & Hne & ->)]; [tauto|].
    unfold bg_unincorporate, bg_incorporate. cbn [bg_set_dists bg_of bg_max_length].
    rewrite (proj2 (max_test ml _)) by (right; lia).
    rewrite (proj2 (string_to_indices_Ok _ (String.string_of_list_ascii cs) _))
      by (split; [rewrite Hs; exact Hok|reflexivity]).
    cbn [obind bg_dists]. rewrite Hs. change (bg_num_chars _) with num. cbn [bg_min_char bg_set_dists bg_of bg_dists]. rewrite Hidx.
    assert (Forall (fun i => i < k)%nat path) as Hpk.
    { rewrite <- Hidx. eapply Forall_impl; [by apply idxs_lt|]. simpl. unfold k, num. lia. }
    destruct path as [|i path _] using rev_ind; [done|].
    rewrite <- app_assoc. simpl app. rewrite app_comm_cons, pairs_of_snoc, foldM_app.
    assert (pairs_of ((num :: path) ++ [i]) ≡ₚ (num, 0%nat) :: pairs_of (path ++ [i])) as Hp.
    { destruct path; simpl in *; by injection Hhd as <-. }
    rewrite (dists_of_perm k a _ (pairs_of ((num :: path) ++ [i]) ++ P))
      by (rewrite Hp; simpl; by rewrite Permutation_middle).
    rewrite uninc_pairs_of by (apply pairs_of_ok; constructor; [unfold k; lia|done]).
    cbn [obind foldM]. apply Forall_app in Hpk as [_ Hi]. apply Forall_cons in Hi as [Hi _].
    unfold bg_inc_pair. cbn [fst snd]. rewrite dists_of_lookup by done. cbn [obind idx_].
    unfold dc_incorporate. rewrite dc_in_range_of, bool_decide_eq_true_2 by (unfold in_cats, k; lia).
    cbn [obind assert_ dc_of dc_counts]. rewrite count_list_lookup by (unfold k; lia). simpl.
    eexists _, _, _. split; [done|]. lia.
  Qed.
End sample.
