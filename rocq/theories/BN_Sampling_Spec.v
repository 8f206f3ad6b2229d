(** What it means for a list of random numbers to select a tuple of values: inversion sampling.
    The number rolled for a variable selects the index whose interval of the cumulated row contains
    it.  The only thing taken from the model is the network's data. *)
From Coq Require Import Reals.
From Verif Require Import Base BN_Model BN_Spec Prob_Spec.
Open Scope nat_scope.

(** bounds of the interval of index i *)
Definition lower (row : list R) (i : nat) : R := Sum (firstn i row).
Definition upper (row : list R) (i : nat) : R := Sum (firstn (S i) row).
(** the intervals are open on the left, but the first is closed: a roll of 0 selects index 0 *)
Definition selects (row : list R) (r : R) (i : nat) : Prop :=
  i < length row /\ (r <= upper row i)%R /\ (i = 0 \/ (lower row i < r)%R).
(** the row of v's table that the assignment e selects *)
Definition row_for (ns : list node) (v : nat) (e : nat -> nat) : list R :=
  match find_node ns v with Some n => row_of ns n e | None => [] end.
(** the rolls, one for each variable in the order [ord], select the assignment e *)
Definition rolls_select (ns : list node) (ord : list nat) (rolls : list R) (e : nat -> nat) : Prop :=
  Forall2 (fun v r => selects (row_for ns v e) r (e v)) ord rolls.
(** width of the interval of v's value under e *)
Definition width (ns : list node) (e : nat -> nat) (v : nat) : R := (upper (row_for ns v e) (e v) - lower (row_for ns v e) (e v))%R.
