(** Model of PMF.__eq__, CPMF.__eq__ (PMF.py:202-213, 292-304) and of the comparison printers
    pmf_diff and cpmf_diff (PMF.py:336-417), on top of PMF_Model.v.

    Simplifications: exact real numbers for floats; the printers give a list of lines instead of one
    string: a rule of [n] dashes, an empty line, or a row with its fields and whether it is printed
    in red; how str() renders a key and how `{:>8.6f}` renders a number are parameters. *)
From Coq Require Import Reals.
From Verif Require Import Base Key_Model PMF_Model.
Open Scope nat_scope.

(** the keys of a dictionary (PMF.py:61-62, 252-253) *)
Definition keys_of {V} (d : list (pyobj * V)) : list pyobj := map fst d.
(** `k in s` (PMF.py:202-206) *)
Definition has_key (k : pyobj) (l : list pyobj) : bool := existsb (pyobj_eqb k) l.
(** `selfkeyset == otherkeyset` (PMF.py:203-205, 294-296) *)
Definition same_key_set (l m : list pyobj) : bool := (forallb (fun k => has_key k m) l && forallb (fun k => has_key k l) m)%bool.
(** `abs(a - b) > t` (PMF.py:211, 373, 410) *)
Definition differ (t a b : R) : bool := if Rgt_dec (Rabs (a - b)) t then true else false.

(** self.tolerance_pdiff, as every constructor sets it (PMF.py:18, 223, 226); the printers use the
    same constant (PMF.py:340, 389) *)
Definition tolerance : R := (/ 10 ^ 10)%R.

(** PMF.__eq__ (PMF.py:202-213); [tol]: self.tolerance_pdiff.  The keys are looked up with p(), in
    an order that does not matter since the loop only looks for one that differs *)
Definition pmf_eq (tol : R) (P Q : pmf) : bool :=
  if same_key_set (keys_of (probabilities P)) (keys_of (probabilities Q)) then
    forallb (fun key => negb (differ tol (pmf_p P [key]) (pmf_p Q [key])))
      (keys_of (probabilities P) ++ keys_of (probabilities Q))
  else false.
(** CPMF.__eq__ (PMF.py:292-304); the tables it holds have the tolerance of the constructor *)
Definition cpmf_eq (C D : cpmf) : bool :=
  if same_key_set (keys_of C) (keys_of D) then
    forallb (fun key => pmf_eq tolerance (given C [key]) (given D [key])) (keys_of C)
  else false.

(** `a < b` of two keys (used by sorted(), PMF.py:342, 349, 391): integers, or tuples of integers
    from left to right; an integer is not comparable with a tuple *)
Fixpoint key_lt (a b : pyobj) {struct a} : res bool :=
  match a, b with
  | PInt x, PInt y => Ok (Z.ltb x y)
  | PTup l, PTup m =>
    (fix go (l m : list pyobj) {struct l} : res bool :=
       match l, m with
       | _, [] => Ok false
       | [], _ :: _ => Ok true
       | x :: l', y :: m' => if pyobj_eqb x y then go l' m' else key_lt x y
       end) l m
  | _, _ => Err TypeError
  end.
(** sorted(): insertion (PMF.py:342, 349, 391) *)
Fixpoint insert_sorted (x : pyobj) (l : list pyobj) : res (list pyobj) :=
  match l with
  | [] => Ok [x]
  | y :: l' => b <- key_lt y x ;; if b then r <- insert_sorted x l' ;; Ok (y :: r) else Ok (x :: l)
  end.
(** sorted() (PMF.py:342, 349, 391) *)
Fixpoint sort_keys (l : list pyobj) : res (list pyobj) :=
  match l with [] => Ok [] | x :: l' => r <- sort_keys l' ;; insert_sorted x r end.
(** set(l) (PMF.py:342, 349, 391) *)
Fixpoint as_set (l : list pyobj) : list pyobj :=
  match l with [] => [] | x :: l' => if has_key x l' then as_set l' else x :: as_set l' end.

Section Printers.
  Context {char : Type}.
  Variable space : char.
  Variable str : pyobj -> list char.
  Variable fmt : R -> list char.          (* '{:8.6f}' before padding *)

  (** what is printed (PMF.py:336-417) *)
  Inductive line := Rule (n : nat) | Blank | Row (red : bool) (fields : list (list char)).

  (** `{:>n}` (PMF.py:354-360, 395-400) *)
  Definition rjust (n : nat) (t : list char) : list char := repeat space (n - length t) ++ t.
  (** max([len(str(k)) for k in l]): ValueError when empty (PMF.py:351-352, 393) *)
  Definition width (l : list pyobj) : res nat :=
    match l with [] => Err ValueError | k :: l' => Ok (fold_left Nat.max (map (fun k => length (str k)) l') (length (str k))) end.

  (** pmf_diff (PMF.py:385-417) *)
  Definition pmf_diff (A B : pmf) : res (list line) :=
    keys <- sort_keys (as_set (keys_of (probabilities A) ++ keys_of (probabilities B))) ;;
    w <- width keys ;;
    let row_width := 4 + w + 3 + 8 + 3 + 8 in
    Ok (Rule row_width ::
        flat_map (fun k =>
          let ap := pmf_p A [k] in let bp := pmf_p B [k] in
          [Row (differ tolerance ap bp) [rjust w (str k); rjust 8 (fmt ap); rjust 8 (fmt bp)]; Rule row_width]) keys).

  (** cpmf_diff (PMF.py:336-381) *)
  Definition cpmf_diff (A B : cpmf) : res (list line) :=
    conds <- sort_keys (as_set (keys_of A ++ keys_of B)) ;;
    keys <- sort_keys (as_set (flat_map (fun C => flat_map (fun z => keys_of (probabilities (given C [z]))) conds) [A; B])) ;;
    wc <- width conds ;;
    wj <- width keys ;;
    let row_width := 4 + wc + 3 + wj + 3 + 8 + 3 + 8 in
    Ok (flat_map (fun z =>
          Rule row_width ::
          flat_map (fun k =>
            let ap := pmf_p (given A [z]) [k] in let bp := pmf_p (given B [z]) [k] in
            [Row (differ tolerance ap bp) [rjust wc (str z); rjust wj (str k); rjust 8 (fmt ap); rjust 8 (fmt bp)]; Rule row_width]) keys
          ++ [Blank]) conds).
End Printers.
