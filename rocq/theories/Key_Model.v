(** Model of the keys of probability tables: utilities/functions.flatten (functions.py:38-51) and
    PMF.process_pmf_key (PMF.py:324-332).

    A key is an integer or an arbitrarily nested tuple (lists and tuples are treated alike by
    [flatten]; only tuples can be dictionary keys).  Simplification: leaves are integers. *)
From Verif Require Import Base.
Open Scope Z_scope.

(** keys as in functions.py:38-51 and PMF.py:324-332 *)
Inductive pyobj := PInt (z : Z) | PTup (l : list pyobj).

(** dictionary-key equality [== of keys (dictionary lookups in PMF.py:53-84)] *)
Fixpoint pyobj_eqb (a b : pyobj) {struct a} : bool :=
  match a, b with
  | PInt x, PInt y => x =? y
  | PTup l, PTup m =>
    (fix go (l m : list pyobj) {struct l} : bool :=
       match l, m with
       | [], [] => true
       | x :: l', y :: m' => (pyobj_eqb x y && go l' m')%bool
       | _, _ => false
       end) l m
  | _, _ => false
  end.

(** flatten (functions.py:38-51).  The list with cursor [i] is kept as the part before the cursor
    ([done], reversed) and the part from the cursor on ([rest]).
    - `while isinstance(lst[i], ltypes)`: an empty container is popped (the cursor stays, since
      `i -= 1; break; i += 1`); a non-empty one is replaced by its elements, cursor unchanged;
    - otherwise `i += 1`. *)
Fixpoint flatten_loop (fuel : nat) (done rest : list pyobj) : res (list pyobj) :=
  match fuel with
  | O => Err OutOfFuel
  | S fuel' =>
    match rest with
    | [] => Ok (rev done)
    | PTup [] :: rest' => flatten_loop fuel' done rest'
    | PTup (x :: l) :: rest' => flatten_loop fuel' done ((x :: l) ++ rest')
    | PInt z :: rest' => flatten_loop fuel' (PInt z :: done) rest'
    end
  end.

(** enough fuel: one step per node [for the recursion of functions.py:38-51 only] *)
Fixpoint nodes (p : pyobj) : nat :=
  match p with
  | PInt _ => 1
  | PTup l => S ((fix go l := match l with [] => 0%nat | x :: l' => (nodes x + go l')%nat end) l)
  end.
(** the same for a list (functions.py:38-51) *)
Fixpoint nodes_list (l : list pyobj) : nat := match l with [] => 0%nat | x :: l' => (nodes x + nodes_list l')%nat end.
(** flatten (functions.py:38-51) *)
Definition flatten (l : list pyobj) : list pyobj :=
  match flatten_loop (S (nodes_list l)) [] l with Ok r => r | Err _ => [] end.

(** process_pmf_key (PMF.py:324-332) on a tuple: flatten, unwrap a singleton *)
Definition process_pmf_key (key : list pyobj) : pyobj :=
  match flatten key with [k] => k | l => PTup l end.
