(** Proofs about cluster files. *)
From Coq Require Import String Ascii.
From stdpp Require Import gmap sorting strings list.
From Coq Require Import ZArith Reals Lia.
From Verif Require Import M_base M_dist M_crp M_domain M_relation M_noisy M_irm M_hirm M_text M_io M_clusters
  S_crp S_crp_state S_relation S_irm S_schema P_base P_crp P_irm_schema P_text P_schema P_io T_io S_clusters.
Local Open Scope nat_scope.

(** * Words and numbers *)
Lemma span_all p l r : Forall (fun c => p c = true) l -> match r with [] => True | c :: _ => p c = false end -> span p (l ++ r) = (l, r).
Proof.
  intros Hl Hr. induction Hl as [|c l Hc Hl IH]; cbn [app span].
  - destruct r as [|c r]; [done|]. cbn [span]. by rewrite Hr.
  - by rewrite Hc, IH.
Qed.
Lemma plain_txt x : plain x -> txt x <> [] /\ Forall (fun c => isspace c = false) (txt x).
Proof.
  intros [Hne Hw]. split; [|apply Forall_forall; intros c Hc; apply Hw; done]. intros E. apply Hne. rewrite <- (str_txt x), E. done.
Qed.
Lemma next_word_plain x rest : plain x -> match rest with [] => True | c :: _ => isspace c = true end -> next_word (txt x ++ rest) = Some (txt x, rest).
Proof.
  intros [Hne Hw]%plain_txt Hr. unfold next_word.
  assert (span isspace (txt x ++ rest) = ([], txt x ++ rest)) as ->.
  { destruct (txt x) as [|c l]; [done|]. cbn. apply Forall_cons in Hw as [-> _]. done. }
  destruct (txt x ++ rest) as [|c l] eqn:E; [by destruct (txt x)|]. rewrite <- E. f_equal. apply span_all.
  - eapply Forall_impl; [exact Hw|]. intros c' ->. done.
  - destruct rest as [|c' rest]; [done|]. by rewrite Hr.
Qed.
Lemma dec_all fuel n acc : Forall (fun c => (48 <= N_of_ascii c < 58)%N) acc -> Forall (fun c => (48 <= N_of_ascii c < 58)%N) (dec fuel n acc).
Proof. intros H. apply Forall_forall. intros c [Hc|Hc]%dec_digits; [|done]. rewrite Forall_forall in H. by apply H. Qed.
Lemma digit_code c : (48 <= N_of_ascii c < 58)%N <-> isdigit c = true.
Proof. unfold isdigit, code, nat_of_ascii. rewrite andb_true_iff, !Nat.leb_le. lia. Qed.
Lemma dec_ne fuel n acc : dec fuel n acc <> [].
Proof. revert n acc. induction fuel as [|f IH]; intros n acc; cbn [dec]; [done|]. destruct (n / 10 =? 0)%N; [done|apply IH]. Qed.
Lemma dec_isdigit n : Forall (fun c => isdigit c = true) (dec (N.size_nat n) n []).
Proof. eapply Forall_impl; [apply dec_all; constructor|]. intros c. apply digit_code. Qed.
Lemma digits_value_numeral l : Forall (fun c => isdigit c = true) l -> digits_value l = Z.of_N (numeral l).
Proof.
  unfold digits_value, numeral. intros H. change 0%Z with (Z.of_N 0). generalize 0%N.
  induction H as [|c l Hc Hl IH]; intros n; cbn [fold_left]; [done|]. rewrite <- IH. f_equal. apply digit_code in Hc. unfold code, nat_of_ascii. lia.
Qed.
Lemma digits_value_dec n : digits_value (dec (N.size_nat n) n []) = Z.of_N n.
Proof. rewrite digits_value_numeral by apply dec_isdigit. by rewrite dec_numeral. Qed.
Lemma digit_not_space c : isdigit c = true -> isspace c = false.
Proof.
  unfold isdigit, isspace. rewrite andb_true_iff, !Nat.leb_le. intros [H1 H2].
  apply orb_false_iff. split; [apply Nat.eqb_neq; lia|]. apply andb_false_iff. right. apply Nat.leb_gt. lia.
Qed.
Lemma digit_not_sign c : isdigit c = true -> c <> "-"%char /\ c <> "+"%char.
Proof. intros H. split; intros ->; by vm_compute in H. Qed.
Lemma print_int_scan t rest : match rest with [] => True | c :: _ => isdigit c = false end -> scan_int (print_int t ++ rest) = Some (t, rest).
Proof.
  intros Hr. unfold scan_int, print_int.
  assert (forall n rest, match rest with [] => True | c :: _ => isdigit c = false end ->
    span isdigit (dec (N.size_nat n) n [] ++ rest) = (dec (N.size_nat n) n [], rest)) as Hsp by (intros; by apply span_all; [apply dec_isdigit|]).
  destruct (Z.ltb_spec t 0) as [Ht|Ht].
  - cbn [app span]. rewrite (eq_refl : isspace "-"%char = false). cbn [snd sign_of]. unfold ceqb. rewrite bool_decide_true by done. rewrite Hsp by done.
    pose proof (dec_ne (N.size_nat (Z.to_N (- t))) (Z.to_N (- t)) []) as Hne. destruct (dec _ _ _) as [|c l] eqn:E; [done|]. rewrite <- E, digits_value_dec. f_equal. f_equal. lia.
  - pose proof (dec_isdigit (Z.to_N t)) as Hd. pose proof (dec_ne (N.size_nat (Z.to_N t)) (Z.to_N t) []) as Hne. pose proof (Hsp (Z.to_N t) rest Hr) as Hs.
    pose proof (digits_value_dec (Z.to_N t)) as Hv. destruct (dec _ _ _) as [|c l]; [done|]. apply Forall_cons in Hd as [Hc Hd].
    cbn [app span]. rewrite (digit_not_space c Hc). cbn [snd sign_of]. destruct (digit_not_sign c Hc) as [H1 H2]. unfold ceqb. rewrite !bool_decide_false by done.
    cbn [app] in Hs. rewrite Hs. cbn [fst snd]. rewrite Hv. f_equal. f_equal. lia.
Qed.
Lemma scan_space l : scan_int (space :: l) = scan_int l.
Proof. unfold scan_int. cbn [span]. rewrite (eq_refl : isspace space = true). destruct (span isspace l) as [a b]. done. Qed.
Lemma in_int_true t : (- 2 ^ 31 <= t < 2 ^ 31)%Z -> in_int t = true.
Proof. intros H. by apply bool_decide_true. Qed.
Lemma print_int_read t rest : (- 2 ^ 31 <= t < 2 ^ 31)%Z -> read_int (space :: print_int t ++ space :: rest) = Some (t, space :: rest).
Proof. intros Ht. unfold read_int. rewrite scan_space, print_int_scan by done. by rewrite in_int_true. Qed.
Lemma print_int_word t : Forall (fun c => isspace c = false) (print_int t) /\ print_int t <> [].
Proof.
  unfold print_int. destruct (t <? 0)%Z.
  - split; [|done]. constructor; [done|]. eapply Forall_impl; [apply dec_isdigit|]. intros c. apply digit_not_space.
  - split; [|apply dec_ne]. eapply Forall_impl; [apply dec_isdigit|]. intros c. apply digit_not_space.
Qed.
Lemma print_int_plain t : plain (str (print_int t)).
Proof.
  destruct (print_int_word t) as [Hw Hne]. split.
  - intros E. apply Hne. rewrite <- (txt_str (print_int t)), E. done.
  - rewrite txt_str. intros c Hc. rewrite Forall_forall in Hw. by apply Hw.
Qed.
Lemma words_spaced n l : forall i, Forall plain l -> length l + i <= S n -> words (spaced n i l) = map txt l.
Proof.
  induction l as [|x l IH]; intros i Hp Hn; cbn [spaced map]; [done|]. apply Forall_cons in Hp as [[Hne Hw]%plain_txt Hp]. cbn [length] in Hn.
  destruct l as [|y l].
  - cbn [spaced map]. rewrite app_nil_r. case_bool_decide.
    + rewrite words_cons by done. done.
    + rewrite app_nil_r. by apply words_one.
  - rewrite bool_decide_true by (cbn [length] in Hn; lia). cbn [app]. rewrite words_cons by done. f_equal. apply IH; [done|cbn [length] in *; lia].
Qed.
Lemma spaced_line n l : forall i, Forall plain l -> newline ∉ spaced n i l.
Proof.
  induction l as [|x l IH]; intros i Hp; cbn [spaced]; [apply not_elem_of_nil|]. apply Forall_cons in Hp as [[_ Hw] Hp].
  rewrite !not_elem_of_app. split_and!; [|case_bool_decide; [rewrite elem_of_list_singleton|apply not_elem_of_nil]|by apply IH].
  - intros Hin. apply Hw in Hin. done.
  - done.
Qed.
Lemma plain_line x : plain x -> newline ∉ txt x.
Proof. intros [_ Hw] Hin. by apply Hw in Hin. Qed.
Lemma print_line t : newline ∉ print_int t.
Proof. destruct (print_int_word t) as [Hw _]. intros Hin. rewrite Forall_forall in Hw. by apply Hw in Hin. Qed.

(** * Entries of a cluster file *)
(** A domain, a table, its size and its names. *)
Definition entry := (string * Z * nat * list string)%type.
Definition entry_line (e : entry) : text := let '(d, t, n, l) := e in txt d ++ [space] ++ print_int t ++ [space] ++ spaced n 1 l.
Definition e_key (e : entry) : string * Z := (e.1.1.1, e.1.1.2).
Definition entry_ok (P : Z -> Prop) (e : entry) : Prop :=
  let '(d, t, n, l) := e in plain d /\ P t /\ Forall plain l /\ l <> [] /\ length l <= n.
Definition put_entry (cl : clusters) (e : entry) : clusters := let '(d, t, _, l) := e in <[d := <[t := l]> (default ∅ (cl !! d))]> cl.
Lemma entry_no_newline P e : entry_ok P e -> newline ∉ entry_line e.
Proof.
  destruct e as [[[d t] n] l]. intros (Hd & _ & Hl & _). cbn [entry_line].
  pose proof (plain_line d Hd). pose proof (print_line t). pose proof (spaced_line n l 1 Hl).
  assert (newline ∉ [space]) by (rewrite elem_of_list_singleton; done).
  rewrite !not_elem_of_app. done.
Qed.
Lemma map_str_txt' l : map str (map txt l) = l.
Proof. rewrite map_map. rewrite <- (map_id l) at 2. apply map_ext. intros. apply str_txt. Qed.
Lemma irm_line_entry e cl : entry_ok in_range e -> (cl !! (e_key e).1 ≫= (.!! (e_key e).2)) = None ->
  irm_line cl (entry_line e) = Ok (put_entry cl e).
Proof.
  destruct e as [[[d t] n] l]. intros (Hd & Ht & Hl & Hne & Hn). cbn [e_key fst snd]. intros Hk.
  assert (entry_line (d, t, n, l) = txt d ++ space :: print_int t ++ space :: spaced n 1 l) as E by (cbn; done).
  unfold irm_line. rewrite E. clear E. destruct (txt d ++ space :: print_int t ++ space :: spaced n 1 l) as [|c0 l0] eqn:E0; [by destruct (txt d)|]. rewrite <- E0. clear E0 c0 l0.
  rewrite next_word_plain by done. rewrite print_int_read by done. rewrite words_space by done. rewrite words_spaced by (done || lia).
  rewrite map_str_txt', bool_decide_true by done. cbn [assert_ obind]. rewrite str_txt.
  assert (default ∅ (cl !! d) !! t = None) as Hd'.
  { destruct (cl !! d) as [m|]; cbn in *; [done|]. apply lookup_empty. }
  rewrite bool_decide_true by done. done.
Qed.
Lemma put_entry_lookup cl e d t :
  (put_entry cl e !! d ≫= (.!! t)) = if decide (e_key e = (d, t)) then Some e.2 else cl !! d ≫= (.!! t).
Proof.
  destruct e as [[[d' t'] n] l]. cbn [put_entry e_key fst snd]. destruct (decide (d' = d)) as [->|Hd].
  - rewrite lookup_insert. cbn [mbind option_bind]. destruct (decide (t' = t)) as [->|Ht].
    + rewrite lookup_insert. by rewrite decide_True.
    + rewrite lookup_insert_ne by done. rewrite decide_False by (intros E; injection E; intros; done). destruct (cl !! d); [done|apply lookup_empty].
  - rewrite lookup_insert_ne by done. by rewrite decide_False by (intros E; injection E; intros; done).
Qed.
Lemma fold_put_lookup es : NoDup (map e_key es) -> forall cl d t l, (forall e, e ∈ es -> (cl !! (e_key e).1 ≫= (.!! (e_key e).2)) = None) ->
  (fold_left put_entry es cl !! d ≫= (.!! t)) = Some l <-> (exists n, (d, t, n, l) ∈ es) \/ (cl !! d ≫= (.!! t)) = Some l.
Proof.
  induction es as [|e es IH]; intros Hnd cl d t l Hf; cbn [fold_left].
  - split; [by right|]. intros [[n Hin%elem_of_nil]|]; done.
  - cbn [map] in Hnd. apply NoDup_cons in Hnd as [Hni Hnd]. rewrite IH; [|done|].
    + rewrite put_entry_lookup. destruct (decide (e_key e = (d, t))) as [Ek|Ek].
      * split.
        -- intros [[n Hin]|[= E]]; left; [exists n; by right|]. destruct e as [[[d' t'] n'] l']. cbn in E. injection Ek as -> ->. subst l'. exists n'. left.
        -- intros [[n Hin]|Hcl].
           ++ apply elem_of_cons in Hin as [Ee|Hin]; [right; by rewrite <- Ee|left; by exists n].
           ++ exfalso. assert ((cl !! (e_key e).1 ≫= (.!! (e_key e).2)) = None) as Hn by (apply Hf; left). rewrite Ek in Hn. cbn [fst snd] in Hn. congruence.
      * split.
        -- intros [[n Hin]|Hcl]; [left; exists n; by right|by right].
        -- intros [[n Hin]|Hcl]; [|by right]. apply elem_of_cons in Hin as [Ee|Hin]; [by rewrite <- Ee in Ek|left; by exists n].
    + intros e' Hin. rewrite put_entry_lookup. rewrite decide_False.
      * apply Hf. by right.
      * intros E. apply Hni. rewrite E. destruct (e_key e') as [x y] eqn:E'. cbn. rewrite <- E'. by apply elem_of_list_fmap_1.
Qed.
Lemma fold_put_nonempty es : forall cl : clusters, (forall d m, cl !! d = Some m -> m <> ∅) -> forall d m, fold_left put_entry es cl !! d = Some m -> m <> ∅.
Proof.
  induction es as [|e es IH]; intros cl Hcl; cbn [fold_left]; [done|]. apply IH. intros d m. destruct e as [[[d' t'] n'] l']. cbn [put_entry].
  destruct (decide (d' = d)) as [->|Hd]; [rewrite lookup_insert|rewrite lookup_insert_ne by done; apply Hcl]. intros [= <-]. apply insert_non_empty.
Qed.
Lemma load_entries es : Forall (entry_ok in_range) es -> NoDup (map e_key es) -> forall cl : clusters,
  (forall e, e ∈ es -> (cl !! (e_key e).1 ≫= (.!! (e_key e).2)) = None) ->
  foldM irm_line cl (map entry_line es) = Ok (fold_left put_entry es cl).
Proof.
  induction 1 as [|e es He Hes IH]; intros Hnd cl Hf; cbn [map foldM fold_left]; [done|]. cbn [map] in Hnd. apply NoDup_cons in Hnd as [Hni Hnd].
  rewrite irm_line_entry; [|done|apply Hf; left]. cbn [obind]. apply IH; [done|]. intros e' Hin. rewrite put_entry_lookup. rewrite decide_False.
  - apply Hf. by right.
  - intros E. apply Hni. rewrite E. destruct (e_key e') as [x y] eqn:E'. cbn. rewrite <- E'. by apply elem_of_list_fmap_1.
Qed.

(** * What [to_txt] writes *)
Lemma lines_of_app a b : lines_of (a ++ b) = lines_of a ++ lines_of b.
Proof. unfold lines_of. by rewrite map_app, concat_app. Qed.
Lemma foldM_writes {A} (f : text -> A -> outcome text) (g : A -> list text) l :
  (forall a out, a ∈ l -> f out a = Ok (out ++ lines_of (g a))) -> forall out, foldM f out l = Ok (out ++ lines_of (l ≫= g)).
Proof.
  induction l as [|a l IH]; intros Hf out; cbn [foldM mbind list_bind]; [by rewrite app_nil_r|].
  rewrite Hf by left. cbn [obind]. rewrite IH by (intros; apply Hf; by right). by rewrite lines_of_app, app_assoc.
Qed.
Definition item_names (rev : gmap string (gmap Z string)) (d : string) (s : gset Z) : gset string :=
  list_to_set (omap (fun i => m ← rev !! d; m !! i) (elements s)).
Lemma elem_of_item_names rev d s x : x ∈ item_names rev d s <-> exists i m, i ∈ s /\ rev !! d = Some m /\ m !! i = Some x.
Proof.
  unfold item_names. rewrite elem_of_list_to_set, elem_of_list_omap. split.
  - intros (i & Hi%elem_of_elements & E). destruct (rev !! d) as [m|]; [|done]. by exists i, m.
  - intros (i & m & Hi & E1 & E2). exists i. rewrite elem_of_elements, E1. done.
Qed.
Lemma sorted_set_names rev d s : names_of rev d s (sorted_set (item_names rev d s)).
Proof.
  split_and!.
  - apply Sorted_merge_sort. apply _.
  - unfold sorted_set. rewrite merge_sort_Permutation. apply NoDup_elements.
  - intros x. unfold sorted_set. rewrite merge_sort_Permutation, elem_of_elements. apply elem_of_item_names.
Qed.
Local Instance str_le_anti : AntiSymm eq str_le.
Proof. intros a b. apply str_le_antisym. Qed.
Lemma names_of_unique rev d s l l' : names_of rev d s l -> names_of rev d s l' -> l = l'.
Proof.
  intros (S1 & N1 & E1) (S2 & N2 & E2). apply (Sorted_unique str_le).
  - done.
  - done.
  - apply NoDup_Permutation; [done..|]. intros x. by rewrite E1, E2.
Qed.
Lemma name_item_fold rev d l : (forall i, i ∈ l -> exists m x, rev !! d = Some m /\ m !! i = Some x) -> forall acc,
  exists s, foldM (name_item rev d) acc l = Ok s /\ (forall x, x ∈ s <-> x ∈ acc \/ exists i m, i ∈ l /\ rev !! d = Some m /\ m !! i = Some x) /\
    size s <= size acc + length l.
Proof.
  induction l as [|i l IH]; intros Hl acc; cbn [foldM].
  - exists acc. split_and!; [done| |cbn; lia]. intros x. split; [by left|]. intros [?|(i & m & Hi%elem_of_nil & _)]; done.
  - destruct (Hl i) as (m & x & E1 & E2); [by left|]. assert (name_item rev d acc i = Ok ({[x]} ∪ acc)) as -> by (unfold name_item; rewrite E1; cbn [at_ obind]; by rewrite E2). cbn [obind].
    destruct (IH ltac:(intros; apply Hl; by right) ({[x]} ∪ acc)) as (s & Hs & Hx & Hn). exists s. split_and!; [done| |].
    + intros y. rewrite Hx, elem_of_union, elem_of_singleton. split.
      * intros [[->|?]|(j & m' & Hj & ?)]; [right; exists i, m; split_and!; [left|done..]|by left|right; exists j, m'; split; [by right|done]].
      * intros [?|(j & m' & Hj & Em & Ej)]; [left; by right|]. apply elem_of_cons in Hj as [->|Hj]; [left; left; congruence|right; by exists j, m'].
    + assert (size ({[x]} ∪ acc) <= 1 + size acc) as Hu.
      { rewrite size_union_alt, size_singleton. pose proof (subseteq_size (acc ∖ {[x]}) acc ltac:(set_solver)). lia. }
      cbn [length]. lia.
Qed.
Definition entry_of (rev : gmap string (gmap Z string)) (d : string) (a : gmap Z Z) (t : Z) : entry :=
  (d, t, size (customers_at a t), sorted_set (item_names rev d (customers_at a t))).
Definition dom_entries (rev : gmap string (gmap Z string)) (W : world) (A : clustering) (d : string) : list entry :=
  match W !! d, A !! d with Some dm, Some a => map (entry_of rev d a) (sorted_keys (crp_tables (dom_crp dm))) | _, _ => [] end.
Definition world_entries (rev : gmap string (gmap Z string)) (o : orders) (W : world) (A : clustering) : list entry := o_names o (dom W) ≫= dom_entries rev W A.
Lemma tables_iff c a t : holds_seating c a -> t ∈ sorted_keys (crp_tables c) <-> customers_at a t <> ∅.
Proof.
  intros [_ _ Ht]. rewrite P_base.elem_of_sorted_keys, Ht. case_decide as E.
  - split; [by intros [? ?]|done].
  - split; [done|]. intros _. by eexists.
Qed.
Lemma sorted_set_length s : length (sorted_set s) = size s.
Proof. unfold sorted_set. by rewrite merge_sort_Permutation. Qed.
Lemma elem_of_sorted_set s x : x ∈ sorted_set s <-> x ∈ s.
Proof. unfold sorted_set. by rewrite merge_sort_Permutation, elem_of_elements. Qed.
Definition named (rev : gmap string (gmap Z string)) (d : string) (s : gset Z) : Prop := forall i, i ∈ s -> exists m x, rev !! d = Some m /\ m !! i = Some x /\ plain x.
Lemma item_names_fold o rev d s : orders_ok o -> named rev d s ->
  foldM (name_item rev d) ∅ (o_ents o s) = Ok (item_names rev d s) /\ size (item_names rev d s) <= size s.
Proof.
  intros (_ & _ & _ & Ho) Hn. destruct (name_item_fold rev d (o_ents o s)) with (acc := ∅ : gset string) as (s' & E & Hx & Hsz).
  - intros i. rewrite Ho, elem_of_elements. intros (m & x & ? & ? & _)%Hn. eauto.
  - assert (s' = item_names rev d s) as ->.
    { apply set_eq. intros x. rewrite Hx, elem_of_item_names. split.
      - intros [?%elem_of_empty|(i & m & Hi & ?)]; [done|]. rewrite Ho, elem_of_elements in Hi. eauto.
      - intros (i & m & Hi & ?). right. exists i, m. by rewrite Ho, elem_of_elements. }
    split; [done|]. rewrite size_empty, Ho in Hsz. done.
Qed.
Lemma item_names_nonempty rev d s : named rev d s -> s <> ∅ -> sorted_set (item_names rev d s) <> [].
Proof.
  intros Hn [i Hi]%set_choose_L. destruct (Hn i Hi) as (m & x & E1 & E2 & _). intros E.
  assert (x ∈ sorted_set (item_names rev d s)) as Hx by (apply elem_of_sorted_set, elem_of_item_names; eauto). rewrite E in Hx. by apply elem_of_nil in Hx.
Qed.
Lemma item_names_plain rev d s : named rev d s -> Forall plain (sorted_set (item_names rev d s)).
Proof.
  intros Hn. apply Forall_forall. intros x Hx%elem_of_sorted_set. apply elem_of_item_names in Hx as (i & m & Hi & E1 & E2).
  destruct (Hn i Hi) as (m' & x' & E1' & E2' & Hp). congruence.
Qed.
Lemma printable_named rev A d a t : printable_names rev A -> A !! d = Some a -> named rev d (customers_at a t).
Proof. intros Hp Ha i Hi%elem_of_customers_at. destruct (Hp d a Ha) as [_ H]. by eapply H. Qed.
Lemma write_domain_entries o rev W A out d : orders_ok o -> world_holds W A -> printable_names rev A -> d ∈ dom W ->
  write_domain o rev W out d = Ok (out ++ lines_of (map entry_line (dom_entries rev W A d))).
Proof.
  intros Ho HW Hp [dm Hd]%elem_of_dom. unfold write_domain, dom_entries. rewrite Hd. cbn [at_ obind]. pose proof (HW d) as Hdm. rewrite Hd in Hdm. destruct (A !! d) as [a|] eqn:Ha; [|done].
  destruct Hdm as [_ Hs]. 
  rewrite (foldM_writes _ (fun t => [entry_line (entry_of rev d a t)])).
  - f_equal. f_equal. f_equal. rewrite map_map. induction (sorted_keys _) as [|t l IH]; [done|]. cbn [map]. rewrite <- IH. done.
  - intros t out' Ht%(tables_iff _ a); [|done]. unfold write_table. rewrite (hs_tables _ _ Hs), decide_False by done. change (default ∅ (Some (customers_at a t))) with (customers_at a t). cbn zeta.
    destruct (item_names_fold o rev d (customers_at a t) Ho) as [-> _]; [by eapply printable_named|]. cbn [obind]. f_equal. f_equal. unfold lines_of. cbn [map concat entry_line entry_of].
    rewrite app_nil_r, <- !app_assoc. done.
Qed.
Lemma irm_to_txt_entries o rev W A out : orders_ok o -> world_holds W A -> printable_names rev A ->
  irm_to_txt o rev W out = Ok (out ++ lines_of (map entry_line (world_entries rev o W A))).
Proof.
  intros Ho HW Hp. unfold irm_to_txt. rewrite (foldM_writes _ (fun d => map entry_line (dom_entries rev W A d))).
  - f_equal. f_equal. f_equal. unfold world_entries. induction (o_names o (dom W)) as [|d l IH]; [done|]. cbn [mbind list_bind]. rewrite map_app. by f_equal.
  - intros d out' Hd. apply write_domain_entries; [done..|]. destruct Ho as (_ & _ & Ho & _). by rewrite Ho, elem_of_elements in Hd.
Qed.
Lemma elem_of_world_entries o rev W A d t n l : orders_ok o -> world_holds W A ->
  (d, t, n, l) ∈ world_entries rev o W A <-> exists a, A !! d = Some a /\ customers_at a t <> ∅ /\ n = size (customers_at a t) /\ names_of rev d (customers_at a t) l.
Proof.
  intros (_ & _ & Ho & _) HW. unfold world_entries. rewrite elem_of_list_bind. split.
  - intros (d' & Hin & _). unfold dom_entries in Hin. pose proof (HW d') as Hdm. destruct (W !! d') as [dm|]; [|by apply elem_of_nil in Hin]. destruct (A !! d') as [a|] eqn:Ha; [|done].
    change (map (entry_of rev d' a)) with (fmap (entry_of rev d' a) : list Z -> list entry) in Hin.
    apply elem_of_list_fmap in Hin as (t' & E & Ht'). unfold entry_of in E. injection E as -> -> -> ->. exists a. destruct Hdm as [_ Hs].
    apply (tables_iff _ a _ Hs) in Ht'. split_and!; [done..|]. apply sorted_set_names.
  - intros (a & Ha & Ht & -> & Hl). exists d. pose proof (HW d) as Hdm. rewrite Ha in Hdm. destruct (W !! d) as [dm|] eqn:Hd; [|done]. split.
    + unfold dom_entries. rewrite Hd, Ha. change (map (entry_of rev d a)) with (fmap (entry_of rev d a) : list Z -> list entry). apply elem_of_list_fmap. exists t. split.
      * unfold entry_of. f_equal. eapply names_of_unique; [done|apply sorted_set_names].
      * destruct Hdm as [_ Hs]. by apply (tables_iff _ a _ Hs).
    + rewrite Ho, elem_of_elements. by apply elem_of_dom_2 in Hd.
Qed.
Lemma dom_entries_keys rev W A d : map e_key (dom_entries rev W A d) = match W !! d, A !! d with Some dm, Some a => map (pair d) (sorted_keys (crp_tables (dom_crp dm))) | _, _ => [] end.
Proof. unfold dom_entries. destruct (W !! d); [|done]. destruct (A !! d); [|done]. by rewrite map_map. Qed.
Lemma world_entries_keys rev o W A : orders_ok o -> NoDup (map e_key (world_entries rev o W A)).
Proof.
  intros (_ & _ & Ho & _). unfold world_entries. assert (NoDup (o_names o (dom W))) as Hnd by (rewrite Ho; apply NoDup_elements).
  induction Hnd as [|d l Hd Hnd IH]; cbn [mbind list_bind map]; [constructor|]. rewrite map_app. apply NoDup_app. split_and!; [| |exact IH].
  - rewrite dom_entries_keys. destruct (W !! d) as [dm|]; [|constructor]. destruct (A !! d); [|constructor].
    change (map (pair d)) with (fmap (pair d) : list Z -> list (string * Z)). apply NoDup_fmap; [intros x y E; by injection E|]. apply P_base.NoDup_sorted_keys.
  - intros k Hk Hk'. rewrite dom_entries_keys in Hk.
    assert (k.1 = d) as E1.
    { destruct (W !! d) as [dm|]; [|by apply elem_of_nil in Hk]. destruct (A !! d); [|by apply elem_of_nil in Hk].
      change (map (pair d)) with (fmap (pair d) : list Z -> list (string * Z)) in Hk. apply elem_of_list_fmap in Hk as (t & -> & _). done. }
    change (map e_key) with (fmap e_key : list entry -> list (string * Z)) in Hk'. apply elem_of_list_fmap in Hk' as (e & -> & He). apply elem_of_list_bind in He as (d' & He & Hd').
    assert (e_key e ∈ map e_key (dom_entries rev W A d')) as Hk' by (by apply (elem_of_list_fmap_1 e_key)). rewrite dom_entries_keys in Hk'.
    destruct (W !! d') as [dm|]; [|by apply elem_of_nil in Hk']. destruct (A !! d'); [|by apply elem_of_nil in Hk'].
    change (map (pair d')) with (fmap (pair d') : list Z -> list (string * Z)) in Hk'. apply elem_of_list_fmap in Hk' as (t & E & _). rewrite E in E1. cbn in E1. subst d'. done.
Qed.
Lemma world_entries_ok (P : Z -> Prop) o rev W A : orders_ok o -> world_holds W A -> printable_names rev A -> table_numbers P A ->
  Forall (entry_ok P) (world_entries rev o W A).
Proof.
  intros Ho HW Hp HP. apply Forall_forall. intros [[[d t] n] l] (a & Ha & Ht & -> & Hl)%elem_of_world_entries; [|done..].
  pose proof (printable_named rev A d a t Hp Ha) as Hn.
  assert (l = sorted_set (item_names rev d (customers_at a t))) as -> by (eapply names_of_unique; [done|apply sorted_set_names]).
  split_and!.
  - by apply (Hp d a).
  - apply set_choose_L in Ht as [i Hi%elem_of_customers_at]. by eapply HP.
  - by apply item_names_plain.
  - by apply item_names_nonempty.
  - rewrite sorted_set_length. by apply (item_names_fold o).
Qed.
Lemma fold_put_shows o rev W A : orders_ok o -> world_holds W A -> shows rev A (fold_left put_entry (world_entries rev o W A) ∅).
Proof.
  intros Ho HW. split.
  - intros d t l. pose proof (fold_put_lookup (world_entries rev o W A) (world_entries_keys rev o W A Ho) ∅ d t l) as H.
    split.
    + intros (m & E1 & E2). destruct H as [[(n & Hin)|He] _].
      * intros e _. by rewrite lookup_empty.
      * by rewrite E1.
      * apply elem_of_world_entries in Hin as (a & ? & ? & _ & ?); [|done..]. by exists a.
      * by rewrite lookup_empty in He.
    + intros (a & Ha & Ht & Hl). destruct H as [_ H].
      * intros e _. by rewrite lookup_empty.
      * destruct (fold_left _ _ _ !! d) as [m|]; [exists m; split; [done|]; apply H|exfalso; discriminate H];
          left; eexists; apply elem_of_world_entries; [done|done|by exists a|..]; try done.
        by exists a.
  - apply fold_put_nonempty. intros d m. by rewrite lookup_empty.
Qed.
Lemma entries_no_newline P es : Forall (entry_ok P) es -> Forall (fun l => newline ∉ l) (map entry_line es).
Proof. induction 1; constructor; [by eapply entry_no_newline|done]. Qed.
Theorem irm_clusters o rev W A : orders_ok o -> world_holds W A -> printable_names rev A -> table_numbers in_range A ->
  exists file cl, irm_to_txt o rev W [] = Ok file /\ load_clusters_irm file = Ok cl /\ shows rev A cl.
Proof.
  intros Ho HW Hp Ht. pose proof (world_entries_ok in_range o rev W A Ho HW Hp Ht) as Hok. do 2 eexists. split_and!.
  - by apply irm_to_txt_entries.
  - unfold load_clusters_irm. cbn [app]. rewrite getlines_lines_of by (by eapply entries_no_newline).
    apply load_entries; [done|by apply world_entries_keys|]. intros e _. by rewrite lookup_empty.
  - by apply fold_put_shows.
Qed.
