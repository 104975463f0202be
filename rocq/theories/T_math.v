(** C25-C27: numeric helpers. *)
From stdpp Require Import list sets gmap.
From Coq Require Import ZArith Reals Lra Lia.
From Verif Require Import M_base M_math S_math P_base P_math.

(** ** C25 *)
Theorem C25_logsumexp : forall ws : list (option R), ws <> [] ->
  exists r, logsumexp ws = Ok r /\ eexp r = Rsum (eexp <$> ws).
Proof. exact logsumexp_spec. Qed.
Print Assumptions C25_logsumexp.

Theorem C25_logsumexp_permutation : forall ws ws' r r',
  ws ≡ₚ ws' -> logsumexp ws = Ok r -> logsumexp ws' = Ok r' -> r = r'.
Proof. exact logsumexp_perm. Qed.
Print Assumptions C25_logsumexp_permutation.

Theorem C25_logsumexp_shift : forall (ws : list R) (d : R), ws <> [] ->
  exists r, logsumexp (Some <$> ws) = Ok (Some r) /\
            logsumexp ((fun w => Some (w + d)%R) <$> ws) = Ok (Some (r + d)%R).
Proof. exact logsumexp_shift. Qed.
Print Assumptions C25_logsumexp_shift.

(** With at least one finite log-weight, normalisation yields a distribution
    proportional to the weights. *)
Theorem C25_log_normalize : forall ws : list (option R), (exists x, Some x ∈ ws) ->
  exists vs, log_normalize ws = Ok vs /\ length vs = length ws /\ Rsum (eexp <$> vs) = 1%R /\
    forall i w, ws !! i = Some w -> exists v, vs !! i = Some v /\ eexp v = (eexp w / Rsum (eexp <$> ws))%R.
Proof. exact log_normalize_spec. Qed.
Print Assumptions C25_log_normalize.

Theorem C25_log_choice_in_range : forall ws r, (exists x, Some x ∈ ws) ->
  exists i r', log_choice ws r = Ok (i, r') /\ (i < length ws)%nat.
Proof. exact log_choice_spec. Qed.
Print Assumptions C25_log_choice_in_range.

(** Empty weight lists are undefined behaviour, all-minus-infinity lists too. *)
Theorem C25_logsumexp_empty_refuted : logsumexp [] = UB.
Proof. reflexivity. Qed.
Theorem C25_log_normalize_all_neg_inf_refuted : log_normalize [None; None] = UB.
Proof. reflexivity. Qed.

Example C25_example : exists x, Some x ∈ [None; Some 1%R; Some (-3)%R].
Proof. exists 1%R. set_solver. Qed.

(** ** C26 *)
Theorem C26_product : forall {A} (lists : list (list A)), lists <> [] ->
  product lists = Ok (cartesian lists) /\
  length (cartesian lists) = foldr Nat.mul 1%nat (length <$> lists) /\
  (forall tup, tup ∈ cartesian lists <-> Forall2 (fun x l => x ∈ l) tup lists) /\
  (Forall NoDup lists -> NoDup (cartesian lists)).
Proof. exact @product_spec. Qed.
Print Assumptions C26_product.

Theorem C26_product_empty_refuted : forall A, product (A:=A) [] = UB.
Proof. reflexivity. Qed.

Example C26_example : product [[1;2];[3];[4;5]] = Ok [[1;3;4];[1;3;5];[2;3;4];[2;3;5]].
Proof. vm_compute. reflexivity. Qed.

(** ** C27 *)
Theorem C27_linspace : forall start stop num, (2 <= num)%nat ->
  exists v, linspace start stop num true = Ok v /\ length v = num /\
    v !! 0%nat = Some start /\ v !! (num - 1)%nat = Some stop /\
    ((start <= stop)%R -> Forall (fun x => (start <= x <= stop)%R) v) /\
    ((start < stop)%R -> forall i x y, v !! i = Some x -> v !! S i = Some y -> (x < y)%R) /\
    (forall i x y, v !! i = Some x -> v !! S i = Some y -> (y - x = (stop - start) / INR (num - 1))%R).
Proof. exact linspace_spec. Qed.
Print Assumptions C27_linspace.

Theorem C27_linspace_open : forall start stop num, (1 <= num)%nat ->
  exists v, linspace start stop num false = Ok v /\ length v = num /\ v !! 0%nat = Some start /\
    ((start < stop)%R -> Forall (fun x => (start <= x < stop)%R) v).
Proof. exact linspace_open_spec. Qed.
Print Assumptions C27_linspace_open.

Theorem C27_log_linspace : forall start stop num, (2 <= num)%nat -> (0 < start)%R -> (start <= stop)%R ->
  exists v, log_linspace start stop num true = Ok v /\ length v = num /\
    v !! 0%nat = Some start /\ v !! (num - 1)%nat = Some stop /\
    Forall (fun x => (start <= x <= stop)%R) v /\
    ((start < stop)%R -> forall i x y, v !! i = Some x -> v !! S i = Some y -> (x < y)%R).
Proof. exact log_linspace_spec. Qed.
Print Assumptions C27_log_linspace.

Theorem C27_linspace_one_point_refuted : forall a b, linspace a b 1 true = UB.
Proof. reflexivity. Qed.
