(** What a discrete Bayesian network is.  Of the model only the record [node] (name, values, parents,
    table) is used, and dictionary lookup. *)
From Coq Require Import Reals Relations.
From Verif Require Import Base BN_Model Prob_Spec.
Open Scope nat_scope.

(** ** Structure *)
Definition parent_of (ns : list node) (p c : nat) : Prop := exists n, In n ns /\ nname n = c /\ In p (nparents n).
(** no variable is its own ancestor *)
Definition acyclic (ns : list node) : Prop := forall v, ~ clos_trans nat (parent_of ns) v v.
Definition cyclic (ns : list node) : Prop := exists v, clos_trans nat (parent_of ns) v v.
(** names are unique and every parent is a variable of the network *)
Definition well_formed (ns : list node) : Prop :=
  NoDup (map nname ns) /\ forall p c, parent_of ns p c -> In p (map nname ns).
(** every variable once, after all its parents *)
Definition topological (ns : list node) (ord : list nat) : Prop :=
  Permutation ord (map nname ns) /\ forall l1 v l2, ord = l1 ++ v :: l2 -> forall p, parent_of ns p v -> In p l1.
(** the names, sorted *)
Definition names (ns : list node) : list nat := sort_nat (map nname ns).

(** ** Tables *)
Definition values_of (ns : list node) (v : nat) : list nat := match find (fun n => Nat.eqb v (nname n)) ns with Some n => nvalues n | None => [] end.
(** the key under which the row for given values of the parents is stored *)
Definition row_key (n : node) (vals : list nat) : key := match nparents n with [] => None | _ => Some vals end.
(** [vals] are values of the parents of n *)
Definition parents_take (ns : list node) (n : node) (vals : list nat) : Prop :=
  Forall2 (fun p v => In v (values_of ns p)) (nparents n) vals.
(** Each variable has at least one value, none twice, and its table has exactly one row of the right
    length for every combination of values of its parents, and no other rows. *)
Definition complete_tables (ns : list node) : Prop := forall n, In n ns ->
  nvalues n <> [] /\ NoDup (nvalues n) /\ NoDup (nparents n) /\ NoDup (map fst (nprobs n)) /\
  (forall vals, parents_take ns n vals -> exists row, In (row_key n vals, row) (nprobs n) /\ length row = length (nvalues n)) /\
  (forall k row, In (k, row) (nprobs n) -> exists vals, parents_take ns n vals /\ k = row_key n vals).
(** every row is a probability distribution *)
Definition stochastic (ns : list node) : Prop := forall n k row, In n ns -> In (k, row) (nprobs n) ->
  (forall p, In p row -> (0 <= p)%R) /\ Sum row = 1%R.

(** ** The joint distribution *)
(** An assignment gives each name the index of a value. *)
Definition value_at_index (ns : list node) (v i : nat) : nat := nth i (values_of ns v) 0.
Definition row_of (ns : list node) (n : node) (e : nat -> nat) : list R :=
  match assoc key_eqb (row_key n (map (fun p => value_at_index ns p (e p)) (nparents n))) (nprobs n) with Some row => row | None => [] end.
(** P(n | parents of n) under the assignment *)
Definition cond_prob (ns : list node) (n : node) (e : nat -> nat) : R := nth (e (nname n)) (row_of ns n e) 0%R.
Fixpoint Prod (l : list R) : R := match l with [] => 1%R | x :: l' => (x * Prod l')%R end.
Definition joint (ns : list node) (e : nat -> nat) : R := Prod (map (fun n => cond_prob ns n e) ns).

(** Assignments as tuples: the value indices of the variables in alphabetical order *)
Fixpoint cartesian (cards : list nat) : list (list nat) :=
  match cards with [] => [[]] | c :: cs => flat_map (fun i => map (cons i) (cartesian cs)) (seq 0 c) end.
Definition card (ns : list node) (v : nat) : nat := length (values_of ns v).
Definition tuples (ns : list node) : list (list nat) := cartesian (map (card ns) (names ns)).
Fixpoint entry_of (vs t : list nat) (v : nat) : nat :=
  match vs, t with u :: vs', x :: t' => if Nat.eqb v u then x else entry_of vs' t' v | _, _ => 0 end.
Definition assignment (ns : list node) (t : list nat) : nat -> nat := entry_of (names ns) t.
(** the network's probability space *)
Definition network_space (ns : list node) : space (list nat) :=
  {| outcomes := tuples ns; weight := fun t => joint ns (assignment ns t) |}.
