(** C34 (string alignments), C35 (nearest string). *)
From Coq Require Import Reals Ascii String Lra.
From stdpp Require Import base list gmap sorting.
From Coq Require Import Lia.
From Verif Require Import M_base M_text M_align S_align P_base P_align.
Local Open Scope nat_scope.

(** Without regard to costs, the search gives up alignments only for others. *)
Lemma topk_all pick cost k s1 s2 : valid_pick pick -> exists found, topk_alignments pick k s1 s2 cost = Ok found /\
  (forall q, aligns q s1 s2 -> q ∈ map a_pieces found \/ length found = k).
Proof.
  intros Hp. destruct (topk_run pick cost k s1 s2 Hp) as (hs & fs & xs & ds & V & Hrun & Hi & Hle & Hend & _).
  exists (map (mk cost) fs). split; [done|]. rewrite map_pieces, map_length. intros q [Hb Hg]%begun_goal.
  pose (zero := (fun _ old => old) : cost_function).
  assert (forall p q, cheaper zero p q) as Hz.
  { assert (forall l, cost_of zero l = 0%R) as E; [|intros p q'; unfold cheaper; rewrite !E; lra].
    intros l. unfold cost_of. generalize (seq 0 (length l)). intros m. induction m as [|x m IH]; [done|exact IH]. }
  destruct (missing_costs zero k s1 s2 (fun _ _ _ => 0%R)) with (hs := hs) (fs := fs) (xs := xs) (ds := ds) (V := V) (n := S (length q)) (r := q) (e := @nil piece) as [H|[H _]];
    [intros ps p c; unfold zero; lra|intros; lra|done| |done|done|lia|apply (i_root _ _ _ _ _ _ _ _ Hi)|done|done|by left|by right].
  split; [intros; apply Hz|intros; apply Hz|]. clear -Hz. induction fs as [|f fs IH]; constructor; [done|]. apply Forall_forall. intros; apply Hz.
Qed.

(** C34: for every cost function, whichever element the heap gives: the search ends; every
    alignment in the result spells both strings and carries its own cost; none occurs
    twice; there are at most [k], and fewer only if there are no others. *)
Theorem C34_spells : forall pick cost k s1 s2, valid_pick pick ->
  exists found, topk_alignments pick k s1 s2 cost = Ok found /\
    (forall a, a ∈ found -> aligns (a_pieces a) s1 s2 /\ a_cost a = cost_of cost (a_pieces a) /\ a_pos1 a = length s1 /\ a_pos2 a = length s2) /\
    NoDup (map a_pieces found) /\ length found <= k /\
    (forall q, aligns q s1 s2 -> q ∈ map a_pieces found \/ length found = k).
Proof.
  intros pick cost k s1 s2 Hp. destruct (topk_all pick cost k s1 s2 Hp) as (found & Hrun' & Hall). destruct (topk_run pick cost k s1 s2 Hp) as (hs & fs & xs & ds & V & Hrun & Hi & Hle & Hend & _).
  destruct (inv_found_aligns _ _ _ _ _ _ _ _ Hi) as [Hnd Hal]. rewrite Hrun in Hrun'. injection Hrun' as <-.
  exists (map (mk cost) fs). split_and!; [exact Hrun| |by rewrite map_pieces|by rewrite map_length|exact Hall].
  intros a (q & -> & Hq)%elem_of_list_fmap. cbn. specialize (Hal q Hq). pose proof Hal as (H1 & H2 & _). split_and!; [done|done|by rewrite H1|by rewrite H2].
Qed.
Print Assumptions C34_spells.

(** C34: when every piece adds to the cost, the result is the [k] cheapest alignments (or
    all, if there are fewer than [k]), in order of cost. *)
Theorem C34_topk : forall pick cost w k s1 s2,
  least_pick pick -> additive cost w -> (forall a b p, (0 <= w a b p)%R) ->
  exists found, topk_alignments pick k s1 s2 cost = Ok found /\
    (forall a, a ∈ found -> aligns (a_pieces a) s1 s2 /\ a_cost a = cost_of cost (a_pieces a)) /\
    NoDup (map a_pieces found) /\ length found <= k /\
    StronglySorted (fun a b => (a_cost a <= a_cost b)%R) found /\
    (forall q, aligns q s1 s2 -> q ∉ map a_pieces found ->
       length found = k /\ forall a, a ∈ found -> (a_cost a <= cost_of cost q)%R).
Proof.
  intros pick cost w k s1 s2 Hl Hadd Hpos. destruct (topk_run pick cost k s1 s2 (least_valid _ Hl)) as (hs & fs & xs & ds & V & Hrun & Hi & Hle & Hend & Hc).
  specialize (Hc (additive_growing _ _ _ _ Hadd Hpos) Hl). destruct (inv_found_aligns _ _ _ _ _ _ _ _ Hi) as [Hnd Hal].
  exists (map (mk cost) fs). rewrite map_pieces, map_length. split_and!; [exact Hrun| |done|done|apply sorted_map, (i_sorted _ _ _ _ _ Hc)|].
  - intros a (q & -> & Hq)%elem_of_list_fmap. cbn. split; [by apply Hal|done].
  - intros q Hq Hout. destruct (topk_missing _ _ _ _ _ _ _ _ _ _ _ q Hadd Hpos Hi Hc Hle Hend Hl Hq Hout) as [H1 H2]. split; [done|].
    intros a (f & -> & Hf)%elem_of_list_fmap. by apply H2.
Qed.
Print Assumptions C34_topk.

(** C34: with the edit distance as cost the first alignment costs the Levenshtein distance. *)
Theorem C34_edit_distance : forall pick k s1 s2, least_pick pick -> 0 < k -> exists a rest,
  topk_alignments pick k s1 s2 edit_distance = Ok (a :: rest) /\ a_cost a = INR (levenshtein s1 s2) /\
  aligns (a_pieces a) s1 s2 /\ edits (a_pieces a) = levenshtein s1 s2.
Proof. exact edit_first. Qed.
Print Assumptions C34_edit_distance.

(** The distance is what its name says: the least number of insertions, deletions and
    substitutions that lead from one string to the other. *)
Theorem C34_levenshtein : forall s1 s2,
  (forall q, aligns q s1 s2 -> levenshtein s1 s2 <= edits q) /\ exists q, aligns q s1 s2 /\ edits q = levenshtein s1 s2.
Proof. intros s1 s2. split; [intros q; apply lev_least|apply lev_attained]. Qed.
Print Assumptions C34_levenshtein.

(** C34: without the hypothesis that pieces add to the cost the header's promise ("the
    top-k lowest cost alignments") is false: a piece of negative cost. *)
Definition rebate : cost_function := fun ps old =>
  match last ps with Some (Mat _) => (old + 1)%R | Some (Del _) => (old + 2)%R | Some (Ins _) => (old - 2)%R | _ => old end.
Definition rebate2 : cost_function := fun ps old =>
  match ps with [Ins _] => (old + 5)%R | _ => rebate ps old end.
Theorem C34_topk_any_cost_refuted : exists cost pick s1 s2 a q,
  least_pick pick /\ topk_alignments pick 1 s1 s2 cost = Ok [a] /\ aligns q s1 s2 /\ (cost_of cost q < a_cost a)%R.
Proof.
  exists rebate2, first_least, (txt "a"), (txt "a"), (Align (0 + 1)%R 1 1 [Mat "a"%char]), [Del "a"%char; Ins "a"%char].
  split_and!.
  - apply first_least_ok.
  - unfold topk_alignments. replace (topk_fuel 1 (txt "a") (txt "a")) with (S (S (S 15))) by reflexivity. generalize 15. intros n.
    assert (first_least [Align (0 + 2)%R 1 0 [Del "a"%char]; Align (0 + 5)%R 0 1 [Ins "a"%char]; Align (0 + 1)%R 1 1 [Mat "a"%char]] = 2) as Hp.
    { cbn [first_least least_of a_cost]. destruct (Rlt_dec (0 + 5) (0 + 2)); [exfalso; lra|]. destruct (Rlt_dec (0 + 1) (0 + 2)); [done|exfalso; lra]. }
    cbn [topk_loop length Nat.ltb Nat.leb andb]. cbn [first_least least_of lookup list_lookup idx_ obind delete list_delete a_pos1 a_pos2].
    rewrite lookup_empty. cbn [default from_option id]. change (Datatypes.id 0) with 0.
    change (1 <? 1) with false. cbn [txt list_ascii_of_string length Nat.eqb andb app].
    change (continuations rebate2 ["a"%char] ["a"%char] (Align 0 0 0 [])) with
      [Align (0 + 2)%R 1 0 [Del "a"%char]; Align (0 + 5)%R 0 1 [Ins "a"%char]; Align (0 + 1)%R 1 1 [Mat "a"%char]].
    rewrite Hp. cbn [length Nat.ltb Nat.leb andb lookup list_lookup idx_ obind delete list_delete a_pos1 a_pos2].
    rewrite lookup_insert_ne, lookup_empty by done. cbn [default from_option id]. change (Datatypes.id 0) with 0. change (1 <? 1) with false.
    reflexivity.
  - split_and!; [done|done|]. repeat constructor.
  - unfold cost_of, rebate2, rebate. cbn. lra.
Qed.
Print Assumptions C34_topk_any_cost_refuted.

Example C34_example : exists a, topk_alignments first_least 1 (txt "kitten") (txt "sitting") edit_distance = Ok [a] /\ a_cost a = 3%R.
Proof.
  destruct (C34_edit_distance first_least 1 (txt "kitten") (txt "sitting") first_least_ok) as (a & rest & Hrun & Ha & _); [lia|].
  destruct (C34_spells first_least edit_distance 1 (txt "kitten") (txt "sitting") (least_valid _ first_least_ok)) as (found & Hrun' & _ & _ & Hl & _).
  assert (found = a :: rest) as -> by congruence. destruct rest; [|cbn in Hl; lia].
  exists a. split; [done|]. rewrite Ha. replace (levenshtein _ _) with 3 by (vm_compute; reflexivity). cbn. lra.
Qed.
(** A cost function that meets the hypotheses of [C34_topk] and depends on the context:
    an insertion costs more after a space. *)
Example C34_example_context :
  let w := fun (a b : text) p => match p with Ins _ => if bool_decide (last b = Some " "%char) then 3%R else 2%R | Mat _ => 0%R | _ => 1%R end in
  let cost := fun ps old => match last ps with Some p => (old + w (lefts (take (length ps - 1) ps)) (rights (take (length ps - 1) ps)) p)%R | None => old end in
  additive cost w /\ (forall a b p, (0 <= w a b p)%R).
Proof.
  split.
  - intros ps p c. rewrite last_snoc, app_length. cbn [length]. by rewrite Nat.add_sub, take_app.
  - intros a b [c|c|x y|c]; cbn; [lra|destruct (bool_decide _); lra|lra|lra].
Qed.

(** C35: the nearest string of a non-empty list is a member; its distance to [x] is
    minimal; it is the first such; and it is [x] if [x] is in the list. *)
Theorem C35_nearest : forall pick strings x, least_pick pick -> strings <> [] ->
  exists n best, stringcat_nearest pick strings x = Ok best /\ strings !! n = Some best /\
    (forall m s, strings !! m = Some s -> levenshtein best x <= levenshtein s x) /\
    (x ∈ strings -> best = x) /\
    (x ∉ strings -> forall m s, m < n -> strings !! m = Some s -> levenshtein best x < levenshtein s x).
Proof.
  intros pick strings x Hl Hne. unfold stringcat_nearest. destruct (bool_decide_reflect (x ∈ strings)) as [Hin|Hout].
  - apply elem_of_list_lookup in Hin as [n Hn]. exists n, x. split_and!; [done|done| |done|].
    + intros m s _. assert (levenshtein x x = 0) as ->; [|lia]. clear. induction x as [|c x IH]; [done|]. rewrite lev_cons, IH. destruct (decide (c = c)); [lia|done].
    + intros Hx. exfalso. apply Hx. by eapply elem_of_list_lookup_2.
  - destruct strings as [|s0 strings]; [done|]. cbn [lookup list_lookup idx_ obind].
    destruct (nearest_fold pick x Hl (s0 :: strings) [] s0 None) as (best & low & Hrun & n & Hn & Hbest); [done|done|].
    rewrite Hrun. cbn [obind]. exists n, best. split_and!; [done|exact Hn|intros m s Hs; by apply (Hbest m s)|done|]. intros _ m s Hm Hs. by apply (Hbest m s).
Qed.
Print Assumptions C35_nearest.

(** C35: the list must not be empty. *)
Theorem C35_empty_list_refuted : forall pick x, stringcat_nearest pick [] x = UB.
Proof. reflexivity. Qed.
Print Assumptions C35_empty_list_refuted.

Example C35_example : stringcat_nearest first_least [txt "Boston"; txt "Chicago"; txt "Houston"] (txt "Bosson") = Ok (txt "Boston").
Proof.
  destruct (C35_nearest first_least [txt "Boston"; txt "Chicago"; txt "Houston"] (txt "Bosson") first_least_ok) as (n & best & Hrun & Hn & Hmin & _); [done|].
  rewrite Hrun. f_equal. pose proof (Hmin 0 _ eq_refl) as H0. destruct n as [|[|[|n]]]; [by injection Hn|injection Hn as <-|injection Hn as <-|done]; vm_compute in H0; lia.
Qed.
