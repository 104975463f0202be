(** Shared vocabulary of the model: outcomes of C++ calls and random draws. *)
From stdpp Require Import gmap sorting.
From Coq Require Import ZArith.

(** How a C++ call can end.  [AssertFail] is a failed [assert] (an abort in a
    debug build; with [-c opt], i.e. NDEBUG, execution would continue),
    [Throws] an escaping exception such as [std::out_of_range] from [.at],
    [Exits] a call of [std::exit(1)], [UB] undefined behaviour such as reading
    past the end of a vector, [OutOfFuel] an artefact of the model only (a loop
    bound was too small); theorems show where it cannot occur. *)
Inductive outcome (A : Type) : Type :=
| Ok (a : A)
| AssertFail
| Throws
| Exits
| UB
| OutOfFuel.
Global Arguments Ok {A} a.
Global Arguments AssertFail {A}.
Global Arguments Throws {A}.
Global Arguments Exits {A}.
Global Arguments UB {A}.
Global Arguments OutOfFuel {A}.

(** Sequencing: stop at the first call that does not end normally. *)
Definition obind {A B} (m : outcome A) (f : A -> outcome B) : outcome B :=
  match m with
  | Ok a => f a
  | AssertFail => AssertFail
  | Throws => Throws
  | Exits => Exits
  | UB => UB
  | OutOfFuel => OutOfFuel
  end.
Notation "'let*' x := m 'in' k" := (obind m (fun x => k))
  (at level 200, x pattern, m at level 100, k at level 200, right associativity).

(** [assert(b)] *)
Definition assert_ (b : bool) : outcome unit := if b then Ok tt else AssertFail.

(** [m.at(k)] : throws [std::out_of_range] when the key is absent. *)
Definition at_ {A} (o : option A) : outcome A :=
  match o with Some a => Ok a | None => Throws end.

(** [v[i]] on a vector: undefined behaviour when the index is absent. *)
Definition idx_ {A} (o : option A) : outcome A :=
  match o with Some a => Ok a | None => UB end.

(** Loop over a list with an outcome-valued body ([for] over a container). *)
Fixpoint foldM {A S} (f : S -> A -> outcome S) (s : S) (l : list A) : outcome S :=
  match l with
  | [] => Ok s
  | a :: l' => let* s' := f s a in foldM f s' l'
  end.

(** The pseudo random generator is an arbitrary list of raw draws; every
    theorem quantifies over all of them.  An exhausted list keeps returning 0. *)
Definition rng := list nat.
Definition draw (r : rng) : nat * rng :=
  match r with [] => (0, []) | x :: r' => (x, r') end.

(** util_math.cc:60-64 [choice], :66-73 [log_choice], :101-110 [sample_from_logps]: a
    random index of the weight vector.  The model lets it be any index of the
    vector (a superset of what std::discrete_distribution can return); an empty
    weight vector gives index 0, which is out of range for every caller. *)
Definition choose_index (n : nat) (r : rng) : nat * rng :=
  let '(x, r') := draw r in
  (match n with 0 => 0 | S _ => x mod n end, r').

(** Keys of a [std::map<int, _>] in increasing order. *)
Definition sorted_keys {A} (m : gmap Z A) : list Z :=
  merge_sort Z.le (elements (dom m)).

(** [m.rbegin()->first]: the largest key of a [std::map<int, _>]. *)
Definition max_key {A} (m : gmap Z A) : option Z := last (sorted_keys m).

(** Decide a closed decidable proposition by computation (used by examples). *)
Ltac by_compute := apply (bool_decide_unpack _); vm_compute; exact I.
Global Instance outcome_eq_dec {A} `{EqDecision A} : EqDecision (outcome A).
Proof. solve_decision. Defined.
