(** C28: entity encodings.  C49: observation files. *)
From Coq Require Import String Ascii.
From stdpp Require Import gmap strings list.
From Coq Require Import ZArith Lia.
From Verif Require Import M_base M_crp M_relation M_noisy M_text M_io M_parse M_schema S_parse S_schema S_irm S_io
  P_base P_text P_schema P_irm P_io T_irm.
Local Open Scope nat_scope.

(** * C28 *)

(** Whatever the iteration order of the observations: the codes of a domain of the schema
    are 0, ..., n-1, one for each name observed at a position of that domain, and the two maps
    are mutually inverse.  No other domain has codes. *)
Theorem C28_encoding o schema obs E : orders_ok o -> calculate_encoding o schema obs = Ok E -> forall d,
  (declared_domain schema d -> exists f r, enc_f E !! d = Some f /\ enc_r E !! d = Some r /\ numbering (occurs schema obs d) f r) /\
  (~ declared_domain schema d -> enc_f E !! d = None /\ enc_r E !! d = None).
Proof.
  intros Ho HE d. pose proof (proj2 (proj2 (calculate_encoding_spec o schema obs Ho)) E HE d) as H.
  destruct (enc_f E !! d) as [f|]; destruct H as [Hd H].
  - destruct H as (r & Hr & Hn). split; [eauto|done].
  - split; [done|]. by rewrite H.
Qed.
Print Assumptions C28_encoding.

Lemma readable_dec schema obs : readable schema obs \/ ~ readable schema obs.
Proof.
  set (P := fun rel (l : list observation) =>
    Forall (fun x => match schema !! rel with Some ds => length x.1 <= length ds | None => False end) l).
  assert (forall rel l, Decision (P rel l)) as Hd.
  { intros rel l. unfold P. destruct (schema !! rel); apply _. }
  assert (readable schema obs <-> map_Forall P obs) as Hiff.
  { split.
    - intros H rel l Hl. apply Forall_forall. intros [items v] Hx. destruct (H rel l items v Hl Hx) as (ds & -> & Hle). done.
    - intros H rel l items v Hl Hx. pose proof (proj1 (Forall_forall _ _) (H rel l Hl) _ Hx) as Hy. cbn in Hy.
      destruct (schema !! rel) as [ds|]; [|done]. by exists ds. }
  destruct (decide (map_Forall P obs)) as [Hp|Hp]; [left|right]; by rewrite Hiff.
Qed.
(** It succeeds exactly on the observations that fit the schema and throws on the others. *)
Theorem C28_total o schema obs : orders_ok o ->
  (readable schema obs <-> exists E, calculate_encoding o schema obs = Ok E) /\
  (~ readable schema obs <-> calculate_encoding o schema obs = Throws).
Proof.
  intros Ho. destruct (calculate_encoding_spec o schema obs Ho) as (H1 & H2 & _). destruct (readable_dec schema obs) as [Hr|Hr].
  - destruct (H1 Hr) as [E HE]. split; (split; [|]); [by eauto|done|done|congruence].
  - specialize (H2 Hr). split; (split; [|]); [done|intros [E HE]; congruence|done|done].
Qed.
Print Assumptions C28_total.

(** Which name gets which code depends on the iteration order. *)
Definition rev_orders : orders := Orders elements map_to_list (fun s => rev (elements s)) elements.
Lemma rev_orders_ok : orders_ok rev_orders.
Proof. split_and!; try by intros ?. intros s. cbn. symmetry. apply Permutation_rev. Qed.
Definition C28_schema : gmap string (list string) := {[ "r" := ["d"; "c"]; "s" := ["d"; "d"] ]}%string.
Definition C28_obs : observations :=
  {[ "r" := [(["x"; "u"], "1"); (["y"; "u"], "0")]; "s" := [(["z"; "x"], "0")] ]}%string.
Lemma C28_readable : readable C28_schema C28_obs.
Proof.
  intros rel l items v. unfold C28_obs, C28_schema. intros [[<- <-]|[Hne [<- <-]%lookup_singleton_Some]]%lookup_insert_Some Hin;
  repeat (apply elem_of_cons in Hin as [[= -> ->]|Hin]; [eexists; split; [reflexivity|cbn; lia]|]); by apply elem_of_nil in Hin.
Qed.
Theorem C28_order_independent_refuted : exists E E',
  calculate_encoding some_orders C28_schema C28_obs = Ok E /\ calculate_encoding rev_orders C28_schema C28_obs = Ok E' /\
  (f ← enc_f E !! "d"%string; f !! "x"%string) <> (f ← enc_f E' !! "d"%string; f !! "x"%string).
Proof.
  assert ((let* E := calculate_encoding some_orders C28_schema C28_obs in let* E' := calculate_encoding rev_orders C28_schema C28_obs in
    Ok (bool_decide ((f ← enc_f E !! "d"%string; f !! "x"%string) = (f ← enc_f E' !! "d"%string; f !! "x"%string)))) = Ok false) as H by by_compute.
  apply obind_Ok in H as (E & HE & H). apply obind_Ok in H as (E' & HE' & [= Hf]). exists E, E'. split_and!; try done.
  by apply bool_decide_eq_false in Hf.
Qed.
Print Assumptions C28_order_independent_refuted.

(** Encoding succeeds for observations among those the encoding was computed from, and
    the result decodes to the same values and the same names in the same order.  A
    relation without observations gets no entry. *)
Definition part_of (obs all : observations) : Prop :=
  forall rel l x, obs !! rel = Some l -> x ∈ l -> exists l', all !! rel = Some l' /\ x ∈ l'.
Theorem C28_round_trip o o' schema all obs E : orders_ok o -> orders_ok o' ->
  calculate_encoding o schema all = Ok E -> part_of obs all -> dom obs ⊆ dom schema ->
  exists eobs, encode_observations o' (enc_f E) (fun rel => schema !! rel) obs = Ok eobs /\
  forall rel, match obs !! rel with
    | None | Some [] => eobs !! rel = None
    | Some l => exists ds l', schema !! rel = Some ds /\ eobs !! rel = Some l' /\
        Forall2 (fun (y : items_t * string) (x : observation) => y.2 = x.2 /\ stands_for (enc_r E) ds y.1 x.1) l' l
    end.
Proof.
  intros Ho Ho' HE Hp Hd.
  assert (readable schema all) as Hr.
  { apply (C28_total o schema all Ho). by exists E. }
  destruct (encode_observations_ok o' E (fun rel => schema !! rel) obs Ho') as (eobs & He & H).
  - intros rel l Hl. assert (rel ∈ dom schema) as [ds Hds]%elem_of_dom by (apply Hd, elem_of_dom; eauto).
    exists ds. split; [done|]. intros [items v] Hx. destruct (Hp rel l _ Hl Hx) as (l' & Hl' & Hx').
    destruct (Hr _ _ _ _ Hl' Hx') as (ds' & Hds' & Hlen). assert (ds' = ds) as -> by congruence. split; [done|].
    intros d y (i & Hi & Hy). pose proof (proj1 (C28_encoding o schema all E Ho HE d)) as Hn.
    destruct Hn as (f & r & Hf & Hrr & N1 & N2 & _); [exists rel, ds; split; [done|by eapply elem_of_list_lookup_2]|].
    destruct (proj2 (N1 y)) as [c Hc]; [by exists rel, l', items, v, ds, i|]. exists f, r, c. split_and!; try done. by apply N2.
  - exists eobs. split; [done|]. exact H.
Qed.
Print Assumptions C28_round_trip.

(** In particular for the observations themselves and for both parts of merged
    observations (observations and held-out observations). *)
Lemma part_of_refl obs : part_of obs obs.
Proof. by intros rel l x ??; exists l. Qed.
Theorem C28_merged obs heldout : part_of obs (merge_observations obs heldout) /\ part_of heldout (merge_observations obs heldout) /\
  forall rel x, (exists l, merge_observations obs heldout !! rel = Some l /\ x ∈ l) ->
    (exists l, obs !! rel = Some l /\ x ∈ l) \/ (exists l, heldout !! rel = Some l /\ x ∈ l).
Proof.
  unfold merge_observations. split_and!.
  - intros rel l x Hl Hx. rewrite lookup_union_with, Hl. destruct (heldout !! rel); cbn; eexists; (split; [done|]); [apply elem_of_app; by left|done].
  - intros rel l x Hl Hx. rewrite lookup_union_with, Hl. destruct (obs !! rel); cbn; eexists; (split; [done|]); [apply elem_of_app; by right|done].
  - intros rel x (l & Hl & Hx). rewrite lookup_union_with in Hl. destruct (obs !! rel) as [a|], (heldout !! rel) as [b|]; cbn in Hl; try done.
    + injection Hl as <-. apply elem_of_app in Hx as [?|?]; eauto.
    + injection Hl as <-. eauto.
    + injection Hl as <-. eauto.
Qed.
Print Assumptions C28_merged.

Example C28_example : exists E eobs, calculate_encoding some_orders C28_schema C28_obs = Ok E /\
  encode_observations rev_orders (enc_f E) (fun rel => C28_schema !! rel) C28_obs = Ok eobs /\
  readable C28_schema C28_obs /\ (f ← enc_f E !! "d"%string; Some (size f)) = Some 3.
Proof.
  assert ((let* E := calculate_encoding some_orders C28_schema C28_obs in
    let* eobs := encode_observations rev_orders (enc_f E) (fun rel => C28_schema !! rel) C28_obs in
    Ok (f ← enc_f E !! "d"%string; Some (size f))) = Ok (Some 3)) as H by by_compute.
  apply obind_Ok in H as (E & HE & H). apply obind_Ok in H as (eobs & He & [= Hs]). exists E, eobs. split_and!; try done. apply C28_readable.
Qed.

(** * C49 *)

(** A file is read exactly when each of its lines is a value, a declared relation and at
    least one entity; the observations of a relation are then those of its lines, in order. *)
Theorem C49_read schema file obs :
  load_observations schema file = Ok obs <->
  exists ls ys, file_lines file ls /\ Forall2 (reads_line schema) ls ys /\
    forall rel, obs !! rel = match observed_of ys rel with [] => None | l => Some l end.
Proof.
  unfold load_observations. rewrite load_lines_iff. split.
  - intros (ys & HF & ->). exists (getlines newline file), ys. split_and!; [apply file_lines_exists|done|].
    intros rel. rewrite foldl_push_lookup, lookup_empty. by destruct (observed_of ys rel).
  - intros (ls & ys & Hls & HF & Hobs). rewrite (file_lines_getlines _ _ Hls). exists ys. split; [done|]. apply map_eq. intros rel.
    rewrite Hobs, foldl_push_lookup, lookup_empty. by destruct (observed_of ys rel).
Qed.
Print Assumptions C49_read.

(** A line reads in at most one way. *)
Theorem C49_unambiguous schema file ls ls' ys ys' :
  file_lines file ls -> file_lines file ls' -> Forall2 (reads_line schema) ls ys -> Forall2 (reads_line schema) ls' ys' ->
  ls = ls' /\ ys = ys'.
Proof.
  intros H1 H2 F1 F2. apply file_lines_getlines in H1 as <-. apply file_lines_getlines in H2 as <-. split; [done|].
  revert ys' F2. induction F1 as [|l y ls ys Hy _ IH]; intros ys' F2; inversion F2 as [|? y' ? ys2 Hy' F3]; subst; [done|].
  f_equal; [|by apply IH]. pose proof (obs_line_reads schema ∅ l y Hy) as A. rewrite (obs_line_reads schema ∅ l y' Hy') in A.
  assert (push (∅ : observations) y'.1 y'.2 = push ∅ y.1 y.2) as B by congruence. clear A.
  destruct y as [k x], y' as [k' x']. cbn [fst snd] in B. pose proof (f_equal (fun m : observations => m !! k) B) as C. cbn beta in C.
  rewrite !push_lookup, !lookup_empty, (decide_True (P := k = k)) in C by done.
  destruct (decide (k = k')) as [->|Hne]; [by injection C as ->|done].
Qed.
Print Assumptions C49_unambiguous.

(** Writing observations with the encoding they were encoded with, and reading the file, gives
    the same observations in the same order within each relation, if names and values contain
    no comma and no newline and the last entity is not the empty name. *)
Theorem C49_round_trip o o' o'' schema all obs E : orders_ok o -> orders_ok o' -> orders_ok o'' ->
  calculate_encoding o schema all = Ok E -> part_of obs all ->
  (forall rel l x, obs !! rel = Some l -> x ∈ l -> writable_obs rel x) -> dom obs ⊆ dom schema ->
  exists eobs file obs', encode_observations o' (enc_f E) (fun rel => schema !! rel) obs = Ok eobs /\
    write_observations o'' (enc_r E) (fun rel => schema !! rel) eobs = Ok file /\
    load_observations (dom schema) file = Ok obs' /\ same_observations obs' obs.
Proof.
  intros Ho Ho' Ho'' HE Hp Hw Hd. destruct (C28_round_trip o o' schema all obs E Ho Ho' HE Hp Hd) as (eobs & He & H).
  destruct (write_then_load o'' E (fun rel => schema !! rel) eobs obs (dom schema) Ho'' H) as (file & Hf & obs' & Hl & Hs).
  - intros rel l x Hl Hx. split; [apply Hd, elem_of_dom; by exists l|by eapply Hw].
  - by exists eobs, file, obs'.
Qed.
Print Assumptions C49_round_trip.

(** Without the restrictions the round trip fails: an empty last name is lost, a comma in a
    name splits it. *)
Definition C49_round (schema : gmap string (list string)) (obs : observations) : outcome observations :=
  let* E := calculate_encoding some_orders schema obs in
  let* eobs := encode_observations some_orders (enc_f E) (fun rel => schema !! rel) obs in
  let* file := write_observations some_orders (enc_r E) (fun rel => schema !! rel) eobs in
  load_observations (dom schema) file.
Theorem C49_empty_name_refuted : exists schema obs obs', readable schema obs /\
  C49_round schema obs = Ok obs' /\ ~ same_observations obs' obs.
Proof.
  exists {[ "r" := ["d"; "c"] ]}%string, {[ "r" := [(["x"; ""], "1")] ]}%string, {[ "r" := [(["x"], "1")] ]}%string.
  split_and!; [|by_compute|].
  - intros rel l items v [<- <-]%lookup_singleton_Some Hin. apply elem_of_list_singleton in Hin as [= -> ->]. eexists. split; [reflexivity|cbn; lia].
  - intros H. specialize (H "r"%string). vm_compute in H. discriminate H.
Qed.
Print Assumptions C49_empty_name_refuted.
Theorem C49_comma_refuted : exists schema obs obs', readable schema obs /\
  C49_round schema obs = Ok obs' /\ ~ same_observations obs' obs.
Proof.
  exists {[ "r" := ["d"; "c"] ]}%string, {[ "r" := [(["x,y"; "z"], "1")] ]}%string, {[ "r" := [(["x"; "y"; "z"], "1")] ]}%string.
  split_and!; [|by_compute|].
  - intros rel l items v [<- <-]%lookup_singleton_Some Hin. apply elem_of_list_singleton in Hin as [= -> ->]. eexists. split; [reflexivity|cbn; lia].
  - intros H. specialize (H "r"%string). vm_compute in H. discriminate H.
Qed.
Print Assumptions C49_comma_refuted.

Example C49_example : exists obs', C49_round C28_schema C28_obs = Ok obs' /\ obs' = C28_obs /\
  forall rel l x, C28_obs !! rel = Some l -> x ∈ l -> writable_obs rel x.
Proof.
  exists C28_obs. split_and!; [by_compute|done|]. intros rel l x. unfold C28_obs.
  intros [[<- <-]|[Hne [<- <-]%lookup_singleton_Some]]%lookup_insert_Some Hin;
  repeat (apply elem_of_cons in Hin as [->|Hin];
    [unfold writable_obs, plain; cbn [fst snd]; split_and!;
      try (repeat constructor); try (intros Hc; repeat (apply elem_of_cons in Hc as [Hc|Hc]; [by vm_compute in Hc|]); by apply elem_of_nil in Hc);
      try (eexists; split; [reflexivity|done])|]); by apply elem_of_nil in Hin.
Qed.

(** * C32, arguments written after the name of a distribution *)

(** "name(k1=v1,...,kn=vn)" gives the distribution the arguments k1=v1, ..., kn=vn, a later
    one winning over an earlier one and over those given apart. *)
Definition arg_text (kv : string * string) : text := txt kv.1 ++ "="%char :: txt kv.2.
Definition inline_text (name : string) (kvs : list (string * string)) : text :=
  txt name ++ "("%char :: separated_by ","%char (map arg_text kvs) ++ [")"%char].
Lemma split_at_first c a b : c ∉ a -> split_at c (a ++ c :: b) = (a, c :: b).
Proof.
  intros Ha. unfold split_at. induction a as [|x a IH]; cbn.
  - unfold ceqb. by rewrite bool_decide_eq_true_2.
  - apply not_elem_of_cons in Ha as [Hne Ha]. unfold ceqb at 1. rewrite bool_decide_eq_false_2 by congruence. cbn. by rewrite IH.
Qed.
Lemma args_foldM kvs : Forall (fun kv => "="%char ∉ txt kv.1) kvs -> forall m : gmap string string,
  foldM one_arg m (map arg_text kvs) = Ok (foldl (fun m kv => <[kv.1 := kv.2]> m) m kvs).
Proof.
  induction 1 as [|[k v] kvs Hk _ IH]; intros m; cbn [foldM map foldl]; [done|]. unfold one_arg at 1, arg_text at 1. cbn [fst snd] in *.
  rewrite split_at_first by done. cbn [obind]. rewrite !str_txt. apply IH.
Qed.
Theorem C32_inline name e t kvs args :
  known_dist name e t -> kvs <> [] ->
  Forall (fun kv => "="%char ∉ txt kv.1 /\ ","%char ∉ txt kv.1 /\ ","%char ∉ txt kv.2) kvs ->
  dist_spec_new (inline_text name kvs) args = Ok (DistSpec e t (foldl (fun m kv => <[kv.1 := kv.2]> m) args kvs)).
Proof.
  intros Hn Hne HF. unfold dist_spec_new, inline_text.
  rewrite split_at_first by (eapply known_dist_no_paren; rewrite str_txt; exact Hn).
  match goal with |- context [last ?l] => assert (last l = Some ")"%char) as -> end.
  { change (?a :: ?b ++ [?c]) with ((a :: b) ++ [c]). apply last_snoc. }
  rewrite bool_decide_eq_true_2 by done. cbn [assert_ obind drop]. rewrite drop_0.
  match goal with |- context [take ?n ?l] => assert (take n l = separated_by ","%char (map arg_text kvs)) as -> end.
  { cbn [length]. rewrite app_length. cbn [length].
    replace (S (length (separated_by ","%char (map arg_text kvs)) + 1) - 2) with (length (separated_by ","%char (map arg_text kvs))) by lia. apply take_app. }
  rewrite getlines_separated.
  - rewrite args_foldM by (eapply Forall_impl; [exact HF|]; naive_solver). cbn [obind]. by rewrite str_txt, (proj2 (dist_of_name_iff _ _ _) Hn).
  - apply Forall_forall. intros x (kv & -> & Hkv)%elem_of_list_fmap. destruct (proj1 (Forall_forall _ _) HF _ Hkv) as (_ & H1 & H2).
    unfold arg_text. intros [?|[?|?]%elem_of_cons]%elem_of_app; done.
  - by destruct kvs.
  - rewrite last_map. destruct (last kvs) as [[k v]|]; [|done]. intros Hx. apply (inj Some) in Hx. unfold arg_text in Hx. by apply app_eq_nil in Hx as [_ Hx].
Qed.
Print Assumptions C32_inline.
Example C32_inline_example :
  dist_spec_new (txt "categorical(k=5)") ∅ = Ok (DistSpec DCategorical IntType {[ "k" := "5" ]}%string) /\
  txt "categorical(k=5)" = inline_text "categorical" [("k", "5")]%string /\
  known_dist "categorical" DCategorical IntType.
Proof.
  split_and!; [|done|constructor].
  pose proof (C32_inline "categorical" DCategorical IntType [("k", "5")]%string ∅ k_categorical) as H. apply H; [done|].
  repeat constructor; cbn; intros Hc; apply elem_of_list_singleton in Hc; discriminate Hc.

Qed.

(** * C49, rejected files and entities without a name *)

(** The first line that cannot be read decides: an undeclared relation makes the program
    exit, a line with too few fields fails an assertion. *)
Theorem C49_rejects schema ls line ys post :
  Forall2 (reads_line schema) ls ys -> (forall y, ~ reads_line schema line y) ->
  foldM (obs_line schema) ∅ (ls ++ line :: post) =
  match getlines comma line with _ :: rel :: _ => if decide (str rel ∈ schema) then AssertFail else Exits | _ => AssertFail end.
Proof.
  intros HF Hbad. rewrite foldM_app.
  rewrite (proj2 (load_lines_iff schema ls ∅ _) (ex_intro _ ys (conj HF eq_refl))). cbn [obind foldM].
  set (obs := foldl _ _ _). destruct (obs_line schema obs line) as [obs'| | | | |] eqn:E.
  { apply obs_line_inv in E as (y & Hy & _). by destruct (Hbad y). }
  all: unfold obs_line in E; destruct (getlines comma line) as [|v [|rel items]]; try discriminate E; try reflexivity; cbn [obind];
    destruct (decide (str rel ∈ schema)) as [Hd|Hd]; [rewrite bool_decide_eq_true_2 in E by done|rewrite bool_decide_eq_false_2 in E by done]; try discriminate E; try reflexivity;
    destruct (bool_decide _); try discriminate E; try reflexivity.
Qed.
Print Assumptions C49_rejects.

(** Merging puts the second observations of a relation behind the first. *)
Theorem C28_merge obs heldout rel :
  default [] (merge_observations obs heldout !! rel) = default [] (obs !! rel) ++ default [] (heldout !! rel) /\
  (is_Some (merge_observations obs heldout !! rel) <-> is_Some (obs !! rel) \/ is_Some (heldout !! rel)).
Proof.
  unfold merge_observations. rewrite lookup_union_with. destruct (obs !! rel), (heldout !! rel); cbn; rewrite ?app_nil_r; (split; [done|]);
    split; try naive_solver eauto. all: intros [[]|[]]; done.
Qed.
Print Assumptions C28_merge.

(** Decimal numerals: the number they denote. *)
Definition numeral (l : text) : N := fold_left (fun a c => 10 * a + (N_of_ascii c - 48))%N l 0%N.
Lemma digit_value n : (n < 10)%N -> (N_of_ascii (M_io.digit n) - 48 = n)%N.
Proof. intros H. unfold M_io.digit. rewrite N_ascii_embedding by lia. lia. Qed.
Lemma dec_value fuel : forall n acc, (n < 2 ^ N.of_nat (S fuel))%N ->
  numeral (dec fuel n acc) = fold_left (fun a c => 10 * a + (N_of_ascii c - 48))%N acc n.
Proof.
  induction fuel as [|f IH]; intros n acc Hn.
  - unfold numeral. cbn [dec fold_left]. change (2 ^ N.of_nat 1)%N with 2%N in Hn. rewrite N.mod_small, digit_value by lia. reflexivity.
  - cbn [dec]. assert (n mod 10 < 10)%N as Hm by (apply N.mod_lt; lia). pose proof (N.div_mod' n 10) as Hdm.
    destruct (n / 10 =? 0)%N eqn:E.
    + apply N.eqb_eq in E. unfold numeral. cbn [fold_left]. rewrite digit_value by done. f_equal. lia.
    + rewrite IH.
      * cbn [fold_left]. rewrite digit_value by done. f_equal. lia.
      * rewrite Nat2N.inj_succ, N.pow_succ_r' in Hn. apply N.div_lt_upper_bound; [done|]. lia.
Qed.
Lemma pos_size p : N.of_nat (Pos.size_nat p) = N.pos (Pos.size p).
Proof. induction p as [p IH|p IH|]; cbn [Pos.size_nat Pos.size]; [rewrite Nat2N.inj_succ, IH; reflexivity..|done]. Qed.
Lemma size_bound n : (n < 2 ^ N.of_nat (S (N.size_nat n)))%N.
Proof.
  rewrite Nat2N.inj_succ, N.pow_succ_r'. destruct n as [|p]; [done|]. pose proof (N.size_gt (N.pos p)) as H.
  cbn [N.size_nat]. rewrite pos_size. change (N.pos (Pos.size p)) with (N.size (N.pos p)). lia.
Qed.
Lemma dec_digits fuel : forall n acc c, c ∈ dec fuel n acc -> c ∈ acc \/ (48 <= N_of_ascii c < 58)%N.
Proof.
  assert (forall n, (48 <= N_of_ascii (M_io.digit (n mod 10)) < 58)%N) as Hd.
  { intros n. assert (n mod 10 < 10)%N as Hm by (apply N.mod_lt; lia). unfold M_io.digit. revert Hm. generalize (n mod 10)%N. intros k Hk.
    rewrite N_ascii_embedding by lia. lia. }
  induction fuel as [|f IH]; intros n acc c; cbn [dec].
  - intros [->|?]%elem_of_cons; [right; apply Hd|by left].
  - destruct (n / 10 =? 0)%N; [intros [->|?]%elem_of_cons; [right; apply Hd|by left]|].
    intros [[->|?]%elem_of_cons|?]%IH; [right; apply Hd|by left|by right].
Qed.
Lemma dec_numeral n : numeral (dec (N.size_nat n) n []) = n.
Proof. by rewrite dec_value by apply size_bound. Qed.
Lemma print_int_inj z z' : print_int z = print_int z' -> z = z'.
Proof.
  assert (forall n m, "-"%char :: dec (N.size_nat n) n [] <> dec (N.size_nat m) m []) as Hne.
  { intros n m H. assert ("-"%char ∈ dec (N.size_nat m) m []) as Hin by (rewrite <- H; left).
    apply dec_digits in Hin as [Hin|Hin]; [by apply elem_of_nil in Hin|]. destruct Hin as [Hin _]. vm_compute in Hin. by destruct Hin. }
  unfold print_int. destruct (z <? 0)%Z eqn:E, (z' <? 0)%Z eqn:E'; intros H.
  - injection H as H. apply (f_equal numeral) in H. rewrite !dec_numeral in H. lia.
  - by destruct (Hne _ _ H).
  - by destruct (Hne _ _ (eq_sym H)).
  - apply (f_equal numeral) in H. rewrite !dec_numeral in H. lia.
Qed.
(** An entity with a name is written as that name; one without is written as "new_", its
    domain, "_" and its code in decimal, so that different new entities of a domain get
    different names. *)
Theorem C49_new_entities rev m d : rev !! d = Some m ->
  (forall e x, m !! e = Some x -> write_entity rev d e = Ok (txt x)) /\
  (forall e, m !! e = None -> exists num, write_entity rev d e = Ok (txt "new_" ++ txt d ++ txt "_" ++ num) /\
     ((0 <= e)%Z -> Z.of_N (numeral num) = e) /\ ((e < 0)%Z -> exists num', num = "-"%char :: num' /\ Z.of_N (numeral num') = (- e)%Z)) /\
  (forall e e', m !! e = None -> m !! e' = None -> write_entity rev d e = write_entity rev d e' -> e = e').
Proof.
  intros Hd. unfold write_entity. rewrite Hd. cbn [at_ obind]. split_and!.
  - by intros e x ->.
  - intros e ->. exists (print_int e). split; [done|]. unfold print_int. split; intros He.
    + rewrite (proj2 (Z.ltb_ge _ _)) by lia. rewrite dec_numeral. lia.
    + rewrite (proj2 (Z.ltb_lt _ _)) by lia. eexists. split; [done|]. rewrite dec_numeral. lia.
  - intros e e' -> -> H. assert (forall a b : text, Ok a = Ok b -> a = b) as Hinj by congruence. apply Hinj in H.
    apply app_inv_head, app_inv_head, app_inv_head in H. by apply print_int_inj.
Qed.
Print Assumptions C49_new_entities.
(** But such a name may be that of an existing entity. *)
Theorem C49_new_names_fresh_refuted : exists rev m d e x, rev !! d = Some m /\ m !! e = None /\ m !! 0%Z = Some x /\
  write_entity rev d e = Ok (txt x).
Proof. exists {[ "d"%string := {[ 0%Z := "new_d_1"%string ]} ]}, {[ 0%Z := "new_d_1"%string ]}, "d"%string, 1%Z, "new_d_1"%string. split_and!; done. Qed.
Print Assumptions C49_new_names_fresh_refuted.
