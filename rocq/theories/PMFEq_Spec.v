(** What it means for two probability tables to agree. *)
From Coq Require Import Reals.
From Verif Require Import Base Key_Model.
Open Scope R_scope.

(** the same keys are stored, and for each the two stored numbers are at most [tol] apart *)
Definition agree (tol : R) (d e : list (pyobj * R)) : Prop :=
  (forall k, In k (map fst d) <-> In k (map fst e)) /\
  (forall k a b, In (k, a) d -> In (k, b) e -> Rabs (a - b) <= tol).

(** values in increasing order: numbers by size, tuples by the first component that differs *)
Fixpoint lex_lt (x y : list Z) : Prop :=
  match x, y with
  | _, [] => False
  | [], _ :: _ => True
  | a :: x', b :: y' => (a < b)%Z \/ (a = b /\ lex_lt x' y')
  end.

(** keys of one value are numbers, keys of more (or none) are tuples; the two kinds cannot be sorted
    together *)
Definition wide (x : list Z) : bool := negb (Nat.eqb (length x) 1).
