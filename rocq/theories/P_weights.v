(** Weighted statistics of the distributions and emissions. *)
From Coq Require Import ZArith Reals Ascii Lra.
From stdpp Require Import list gmap.
From Coq Require Import Lia.
From Verif Require Import M_base M_text M_math M_dist M_distributions M_noisy M_emissions
  S_math S_dist S_relation S_align S_emissions P_base P_math P_dist P_beta_bernoulli P_dirichlet P_normal P_bigram.
Local Open Scope R_scope.

(** The statistics as a function of the weighted values. *)
Record wlawful {S X} (inc : S -> X -> R -> outcome S) (ok : R -> Prop) := {
  wl_hyp : Type;
  wl_of : wl_hyp -> list (X * R) -> S;
  wl_adm : X -> Prop;
  wl_perm : forall h l l', l ≡ₚ l' -> wl_of h l = wl_of h l';
  wl_inc : forall h l x w s', ok w -> Forall (fun e => ok e.2) l ->
    (inc (wl_of h l) x w = Ok s' <-> wl_adm x /\ s' = wl_of h ((x, w) :: l));
  wl_uninc : forall h l x w, ok w -> Forall (fun e => ok e.2) l -> wl_adm x ->
    inc (wl_of h ((x, w) :: l)) x (- w) = Ok (wl_of h l) }.
Global Arguments wl_hyp {S X inc ok} _.
Global Arguments wl_of {S X inc ok} _ _ _.
Global Arguments wl_adm {S X inc ok} _ _.

Lemma history_wlawful {S X} (inc : S -> X -> R -> outcome S) ok (L : wlawful inc ok) h s l :
  weighted_history (wl_of L h []) inc ok s l -> s = wl_of L h l /\ Forall (fun e => ok e.2) l /\ Forall (fun e => wl_adm L e.1) l.
Proof.
  induction 1 as [|s l x w s' _ (-> & Hok & Hadm) Hw Hi|s l x w l' s' _ (-> & Hok & Hadm) HP Hi]; [split_and!; [done|constructor|constructor]| |].
  - apply (wl_inc _ _ L) in Hi as [Ha ->]; [|done|done]. split_and!; [done|by constructor|by constructor].
  - rewrite HP in Hok, Hadm. apply Forall_cons in Hok as [Hw Hok]. apply Forall_cons in Hadm as [Ha Hadm].
    rewrite (wl_perm _ _ L h _ _ HP), (wl_uninc _ _ L) in Hi by done. injection Hi as <-. done.
Qed.
Lemma wlawful_undoes {S X} (inc : S -> X -> R -> outcome S) ok (L : wlawful inc ok) h s0 : s0 = wl_of L h [] -> undoes s0 inc ok.
Proof.
  intros ->. split.
  - intros s l x w s' H Hw Hi. apply history_wlawful in H as (-> & Hok & _). apply (wl_inc _ _ L) in Hi as [Ha ->]; [|done|done].
    by apply (wl_uninc _ _ L).
  - intros s l s' l' H H' HP. apply history_wlawful in H as (-> & _), H' as (-> & _). by apply (wl_perm _ _ L).
Qed.

Lemma wtotal_cons {X} (f : X -> R) x w l : wtotal f ((x, w) :: l) = w * f x + wtotal f l.
Proof. unfold wtotal. cbn [map]. by rewrite Rsum_cons. Qed.
Lemma wtotal_perm {X} (f : X -> R) l l' : l ≡ₚ l' -> wtotal f l = wtotal f l'.
Proof. induction 1 as [|[x w] l l' _ IH|[x w] [y v] l|l1 l2 l3 _ IH1 _ IH2]; rewrite ?wtotal_cons; [done|by rewrite IH|lra|congruence]. Qed.
Lemma weight_cons {X} (x : X) w l : weight_of ((x, w) :: l) = w + weight_of l.
Proof. unfold weight_of. rewrite wtotal_cons. lra. Qed.
Lemma weight_perm {X} (l l' : list (X * R)) : l ≡ₚ l' -> weight_of l = weight_of l'.
Proof. apply wtotal_perm. Qed.
Lemma wtotal_nil {X} (f : X -> R) : wtotal f [] = 0.
Proof. done. Qed.
Lemma weight_pos {X} (l : list (X * R)) : Forall (fun e => positive_weight e.2) l -> l <> [] -> 0 < weight_of l.
Proof.
  induction 1 as [|[x w] l Hw Hl IH]; [done|]. intros _. rewrite weight_cons. unfold positive_weight in Hw. cbn in Hw.
  destruct l as [|e l]; [unfold weight_of; rewrite wtotal_nil; lra|]. assert (0 < weight_of (e :: l)) by by apply IH. lra.
Qed.
(** ** BetaBernoulli *)
Lemma bb_inc_whole b x z : bb_incorporate b x (IZR z) = BB (bb_alpha b) (bb_beta b) (bb_N b + IZR z) (bb_s b + (if x then z else 0)).
Proof.
  unfold bb_incorporate. f_equal. replace (IZR (bb_s b) + IZR z * b2r x) with (IZR (bb_s b + (if x then z else 0))); [apply to_int_IZR|].
  rewrite plus_IZR. destruct x; cbn; lra.
Qed.
Definition trues (l : list (bool * R)) : Z := foldr (fun (e : bool * R) (n : Z) => if e.1 then (to_int e.2 + n)%Z else n) 0%Z l.
Definition wbb_of (h : R * R) (l : list (bool * R)) : bb := BB h.1 h.2 (weight_of l) (trues l).
Lemma trues_cons x w l : trues ((x, w) :: l) = if x then (to_int w + trues l)%Z else trues l.
Proof. done. Qed.
Lemma trues_perm l l' : l ≡ₚ l' -> trues l = trues l'.
Proof. induction 1 as [|[x w] l l' _ IH|[x w] [y v] l|l1 l2 l3 _ IH1 _ IH2]; rewrite ?trues_cons; [done|destruct x; lia|destruct x, y; lia|congruence]. Qed.
Lemma wbb_inc h l x w : whole_weight w -> bb_incorporate (wbb_of h l) x w = wbb_of h ((x, w) :: l).
Proof.
  intros [z ->]. rewrite bb_inc_whole. unfold wbb_of. cbn [bb_alpha bb_beta bb_N bb_s]. rewrite weight_cons. rewrite trues_cons.
  rewrite to_int_IZR. f_equal; [lra|destruct x; lia].
Qed.
Lemma whole_opp w : whole_weight w -> whole_weight (- w).
Proof. intros [z ->]. exists (- z)%Z. by rewrite opp_IZR. Qed.
Lemma to_int_opp w : whole_weight w -> to_int (- w) = (- to_int w)%Z.
Proof. intros [z ->]. by rewrite <- opp_IZR, !to_int_IZR. Qed.
Lemma wbb_cancel h l x w : whole_weight w -> wbb_of h ((x, - w) :: (x, w) :: l) = wbb_of h l.
Proof.
  intros Hw. unfold wbb_of. rewrite !weight_cons. rewrite !trues_cons. rewrite to_int_opp by done. f_equal; [lra|destruct x; lia].
Qed.
Definition bb_wlawful : wlawful (fun b x w => Ok (bb_incorporate b x w)) whole_weight.
Proof.
  refine {| wl_hyp := R * R; wl_of := wbb_of; wl_adm := fun _ => True |}.
  - intros h l l' HP. unfold wbb_of. by rewrite (weight_perm _ _ HP), (trues_perm _ _ HP).
  - intros h l x w s' Hw _. rewrite wbb_inc by done. split; [intros [= <-]; done|by intros [_ ->]].
  - intros h l x w Hw _ _. rewrite wbb_inc by by apply whole_opp. by rewrite wbb_cancel.
Defined.

(** ** DirichletCategorical *)
Definition wcounts (k : nat) (l : list (Z * R)) : list R := map (fun i => wtotal (fun x => if decide (x = Z.of_nat i) then 1 else 0) l) (seq 0 k).
Definition wdc_of (k : nat) (a : R) (l : list (Z * R)) : dc := DC a (wcounts k l) (weight_of l).
Lemma wcounts_length k l : length (wcounts k l) = k.
Proof. unfold wcounts. by rewrite map_length, seq_length. Qed.
Lemma wcounts_lookup k l i : (i < k)%nat -> wcounts k l !! i = Some (wtotal (fun x => if decide (x = Z.of_nat i) then 1 else 0) l).
Proof. intros Hi. unfold wcounts. rewrite list_lookup_fmap, lookup_seq_lt by done. done. Qed.
Lemma wdc_inc k a l x w s' : dc_incorporate (wdc_of k a l) x w = Ok s' <-> in_cats k x /\ s' = wdc_of k a ((x, w) :: l).
Proof.
  unfold dc_incorporate, dc_in_range. cbn [wdc_of dc_counts dc_alpha dc_N]. rewrite wcounts_length. fold (in_cats k x).
  destruct (bool_decide_reflect (in_cats k x)) as [Hx|Hx]; cbn [assert_ obind]; [|split; [done|by intros [? _]]].
  unfold in_cats in Hx. rewrite wcounts_lookup by lia. cbn [idx_ obind].
  assert (<[Z.to_nat x := wtotal (fun y => if decide (y = Z.of_nat (Z.to_nat x)) then 1 else 0) l + w]> (wcounts k l) = wcounts k ((x, w) :: l)) as ->.
  { apply list_eq. intros i. destruct (decide (i < k)%nat) as [Hi|Hi].
    - rewrite (wcounts_lookup k ((x, w) :: l)) by done. rewrite wtotal_cons. destruct (decide (Z.to_nat x = i)) as [<-|Hne].
      + rewrite list_lookup_insert by (rewrite wcounts_length; lia). f_equal. rewrite Z2Nat.id by lia. destruct (decide (x = x)); [lra|done].
      + rewrite list_lookup_insert_ne, wcounts_lookup by done. f_equal. destruct (decide (x = Z.of_nat i)) as [->|_]; [|lra].
        by rewrite Nat2Z.id in Hne.
    - rewrite !lookup_ge_None_2; [done|rewrite wcounts_length; lia|rewrite insert_length, wcounts_length; lia]. }
  split; [intros [= <-]; split; [done|]|intros [_ ->]]; unfold wdc_of; rewrite weight_cons, (Rplus_comm w); done.
Qed.
Definition dc_wlawful (k : nat) : wlawful dc_incorporate any_weight.
Proof.
  refine {| wl_hyp := R; wl_of := wdc_of k; wl_adm := in_cats k |}.
  - intros h l l' HP. unfold wdc_of, wcounts. rewrite (weight_perm _ _ HP). f_equal. apply map_ext. intros i. by apply wtotal_perm.
  - intros h l x w s' _ _. apply wdc_inc.
  - intros h l x w _ _ Hx. apply dc_incorporate_inverse. by apply wdc_inc.
Defined.

(** ** ZeroMeanNormal *)
Lemma wavg_perm {X} (f : X -> R) l l' : l ≡ₚ l' -> wavg f l = wavg f l'.
Proof.
  intros HP. destruct l as [|e l]; [apply Permutation_nil in HP as ->; done|]. destruct l' as [|e' l']; [symmetry in HP; by apply Permutation_nil in HP|].
  unfold wavg. by rewrite (wtotal_perm f _ _ HP), (weight_perm _ _ HP).
Qed.
Lemma wavg_total {X} (f : X -> R) l : Forall (fun e => positive_weight e.2) l -> weight_of l * wavg f l = wtotal f l.
Proof.
  intros Hl. destruct l as [|e l]; [unfold weight_of; cbn; rewrite !wtotal_nil; lra|]. unfold wavg. pose proof (weight_pos (e :: l) Hl ltac:(done)). field. lra.
Qed.
Lemma wavg_cons {X} (f : X -> R) x w l : wavg f ((x, w) :: l) = (w * f x + wtotal f l) / (w + weight_of l).
Proof. unfold wavg. by rewrite wtotal_cons, weight_cons. Qed.
Definition wzm_of (h : R * R) (l : list (R * R)) : zmn := Zmn h.1 h.2 (weight_of l) (wavg sq l).
Lemma wzm_inc h l x w : positive_weight w -> Forall (fun e => positive_weight e.2) l -> zm_incorporate (wzm_of h l) x w = wzm_of h ((x, w) :: l).
Proof.
  intros Hw Hl. unfold zm_incorporate. cbn [wzm_of zm_alpha zm_beta zm_N zm_var].
  assert (0 < weight_of l + w) as Hp.
  { unfold positive_weight in Hw. destruct l as [|e l]; [unfold weight_of; rewrite wtotal_nil; lra|]. pose proof (weight_pos (e :: l) Hl ltac:(done)). lra. }
  destruct (Req_EM_T _ _); [lra|]. unfold wzm_of. rewrite weight_cons, wavg_cons, (Rplus_comm w). f_equal. pose proof (wavg_total sq l Hl) as <-. field. lra.
Qed.
Lemma wzm_uninc h l x w : positive_weight w -> Forall (fun e => positive_weight e.2) l -> zm_incorporate (wzm_of h ((x, w) :: l)) x (- w) = wzm_of h l.
Proof.
  intros Hw Hl. unfold zm_incorporate. cbn [wzm_of zm_alpha zm_beta zm_N zm_var]. rewrite weight_cons, wavg_cons. unfold positive_weight in Hw.
  destruct l as [|e l].
  - unfold weight_of. rewrite !wtotal_nil. destruct (Req_EM_T _ _); [|lra]. unfold wzm_of, weight_of. rewrite wtotal_nil. f_equal. lra.
  - pose proof (weight_pos (e :: l) Hl ltac:(done)). destruct (Req_EM_T _ _); [lra|]. unfold wzm_of. f_equal; [lra|]. pose proof (wavg_total sq (e :: l) Hl) as <-.
    field. lra.
Qed.
Definition zm_wlawful : wlawful (fun n x w => Ok (zm_incorporate n x w)) positive_weight.
Proof.
  refine {| wl_hyp := R * R; wl_of := wzm_of; wl_adm := fun _ => True |}.
  - intros h l l' HP. unfold wzm_of. by rewrite (weight_perm _ _ HP), (wavg_perm _ _ _ HP).
  - intros h l x w s' Hw Hl. rewrite wzm_inc by done. split; [intros [= <-]; done|by intros [_ ->]].
  - intros h l x w Hw Hl _. by rewrite wzm_uninc.
Defined.

(** ** Normal *)
Definition wnm_of (h : R * R * R * R) (l : list (R * R)) : normal :=
  Normal_ h.1.1.1 h.1.1.2 h.1.2 h.2 (weight_of l) (wavg (fun x => x) l) (wavg sq l - wavg (fun x => x) l * wavg (fun x => x) l).
Lemma wnm_inc h l x w : positive_weight w -> Forall (fun e => positive_weight e.2) l -> nm_incorporate (wnm_of h l) x w = wnm_of h ((x, w) :: l).
Proof.
  intros Hw Hl. unfold nm_incorporate. cbn [wnm_of nm_r nm_v nm_m nm_s nm_N nm_mean nm_var].
  assert (0 < weight_of l + w) as Hp.
  { unfold positive_weight in Hw. destruct l as [|e l]; [unfold weight_of; rewrite wtotal_nil; lra|]. pose proof (weight_pos (e :: l) Hl ltac:(done)). lra. }
  destruct (Req_EM_T _ _); [lra|]. unfold wnm_of. rewrite weight_cons, !wavg_cons, (Rplus_comm w). pose proof (wavg_total sq l Hl) as <-. pose proof (wavg_total (fun x => x) l Hl) as <-. f_equal; field; lra.
Qed.
Lemma wnm_uninc h l x w : positive_weight w -> Forall (fun e => positive_weight e.2) l -> nm_incorporate (wnm_of h ((x, w) :: l)) x (- w) = wnm_of h l.
Proof.
  intros Hw Hl. unfold nm_incorporate. cbn [wnm_of nm_r nm_v nm_m nm_s nm_N nm_mean nm_var]. rewrite weight_cons, !wavg_cons. unfold positive_weight in Hw.
  destruct l as [|e l].
  - unfold weight_of. rewrite !wtotal_nil. destruct (Req_EM_T _ _); [|lra]. unfold wnm_of, weight_of. rewrite wtotal_nil. cbn [wavg]. f_equal; lra.
  - pose proof (weight_pos (e :: l) Hl ltac:(done)). destruct (Req_EM_T _ _); [lra|]. unfold wnm_of. pose proof (wavg_total sq (e :: l) Hl) as <-. pose proof (wavg_total (fun x => x) (e :: l) Hl) as <-.
    f_equal; [lra|field; lra|field; lra].
Qed.
Definition nm_wlawful : wlawful (fun n x w => Ok (nm_incorporate n x w)) positive_weight.
Proof.
  refine {| wl_hyp := R * R * R * R; wl_of := wnm_of; wl_adm := fun _ => True |}.
  - intros h l l' HP. unfold wnm_of. by rewrite (weight_perm _ _ HP), !(wavg_perm _ _ _ HP).
  - intros h l x w s' Hw Hl. rewrite wnm_inc by done. split; [intros [= <-]; done|by intros [_ ->]].
  - intros h l x w Hw Hl _. by rewrite wnm_uninc.
Defined.
