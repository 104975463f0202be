(** Model of cxx/util_math.{hh,cc}.  Doubles are exact reals; a log-weight that
    may be minus infinity is an [option R] with [None] = minus infinity. *)
From stdpp Require Import list.
From Coq Require Import ZArith Reals.
From Verif Require Import M_base.

(** util_math.cc:11-13 [lbeta]; [lg] is the C library's [lgamma]. *)
Definition lbeta (lg : R -> R) (z w : R) : R := (lg z + lg w - lg (z + w))%R.

(** util_math.cc:15-23 [linspace]; [num - endpoint] converts the bool to 0/1.
    Division by zero (num = 1 with endpoint) is IEEE infinity/NaN in C++ and is
    modelled as undefined. *)
Definition linspace (start stop : R) (num : nat) (endpoint : bool) : outcome (list R) :=
  let den := (Z.of_nat num - (if endpoint then 1 else 0))%Z in
  match num with
  | 0 => Ok []
  | _ =>
    if bool_decide (den = 0%Z) then UB
    else
      let step := ((stop - start) / IZR den)%R in
      Ok ((fun i : nat => start + step * INR i)%R <$> seq 0 num)
  end.

(** util_math.cc:25-32 [log_linspace]. *)
Definition log_linspace (start stop : R) (num : nat) (endpoint : bool) : outcome (list R) :=
  let* v := linspace (ln start) (ln stop) num endpoint in
  Ok (exp <$> v).

(** Comparison of log-weights used by [std::max_element]. *)
Definition lw_ltb (a b : option R) : bool :=
  match a, b with
  | None, Some _ => true
  | Some x, Some y => if Rlt_dec x y then true else false
  | _, None => false
  end.

(** [std::distance(begin, std::max_element(begin, end))]: position of the first
    largest element (0 for an empty range). *)
Fixpoint max_element_from (best : nat) (bestv : option R) (i : nat) (l : list (option R)) : nat :=
  match l with
  | [] => best
  | w :: l' =>
    if lw_ltb bestv w then max_element_from i w (S i) l'
    else max_element_from best bestv (S i) l'
  end.
Definition max_element_index (l : list (option R)) : nat :=
  match l with [] => 0 | w :: l' => max_element_from 0 w 1 l' end.

(** util_math.cc:43-58 [logsumexp].  When the maximum is minus infinity every
    entry is, nothing is added to [s] and the result is minus infinity. *)
Definition logsumexp (weights : list (option R)) : outcome (option R) :=
  let max_index := max_element_index weights in
  let* m := idx_ (weights !! max_index) in
  match m with
  | None => Ok None
  | Some m =>
    let s := foldl (fun s (iw : nat * option R) =>
        if bool_decide (iw.1 = max_index) then s
        else match iw.2 with Some w => (s + exp (w - m))%R | None => s end)
      0%R (zip (seq 0 (length weights)) weights) in
    Ok (Some (ln (1 + s) + m)%R)
  end.

(** util_math.cc:34-41 [log_normalize].  With all entries minus infinity the C++
    computes NaN, modelled as [UB]. *)
Definition log_normalize (weights : list (option R)) : outcome (list (option R)) :=
  let* z := logsumexp weights in
  match z with
  | None => UB
  | Some z => Ok ((fun w => match w with Some w => Some (w - z)%R | None => None end) <$> weights)
  end.

(** util_math.cc:66-73 [log_choice]: the normalised weights only bias the draw. *)
Definition log_choice (weights : list (option R)) (r : rng) : outcome (nat * rng) :=
  let* ws := log_normalize weights in
  Ok (choose_index (length ws) r).

(** util_math.cc:75-99 [product]; [lists[0]] of an empty vector is undefined. *)
Definition product {A} (lists : list (list A)) : outcome (list (list A)) :=
  if existsb (fun l : list A => match l with [] => true | _ => false end) lists then Ok []
  else
    match lists with
    | [] => UB
    | l0 :: rest =>
      Ok (foldl (fun (result : list (list A)) (l : list A) =>
            result ≫= (fun e => (fun f => e ++ [f]) <$> l))
          ((fun e => [e]) <$> l0) rest)
    end.
