(** Data columns as random variables on the rows 0 .. n-1. *)
From Verif Require Import Base PMF_Model.
Open Scope Z_scope.

(** the tuple of values that a variable takes in row [i] (Omega: the constant 1) *)
Definition value_at (v : var) (i : nat) : list Z :=
  match v with
  | Simple x => [nth i (insts x) 0]
  | OmegaVar _ => [1]
  | Joint vs => map (fun x => nth i (insts x) 0) vs
  end.
(** the variable has [n] rows *)
Definition has_rows (v : var) (n : nat) : Prop :=
  match v with
  | Simple x => length (insts x) = n
  | OmegaVar m => m = n
  | Joint vs => vs <> [] /\ Forall (fun x => length (insts x) = n) vs
  end.
(** how many integers [value_at] has *)
Definition arity (v : var) : nat := match v with Joint vs => length vs | _ => 1 end.
(** the number of rows among the first [n] where v takes the value [x] *)
Definition matching (v : var) (n : nat) (x : list Z) : nat :=
  length (filter (fun i => if list_eq_dec Z.eq_dec (value_at v i) x then true else false) (seq 0 n)).

(** Components of a tuple [t] of values of the variables [ids]: the value of variable [c], and of
    the variables [cs]. *)
Fixpoint component (ids t : list Z) (c : Z) : Z :=
  match ids, t with i :: ids', x :: t' => if c =? i then x else component ids' t' c | _, _ => 0 end.
Definition components (ids cs t : list Z) : list Z := map (component ids t) cs.
Definition others (ids cs : list Z) : list Z := filter (fun v => if in_dec Z.eq_dec v cs then false else true) ids.
