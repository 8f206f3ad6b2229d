(** What "path", "d-separated" and "Markov boundary" mean, independently of the code.
    A directed graph is a relation [E] between nodes ([E u v]: an edge u -> v). *)
From Coq Require Export Relations.
From Verif Require Import Base.

(** [path_from E x p y]: the node list [p] walks from [x] to [y] along [E] *)
Inductive path_from (E : nat -> nat -> Prop) : nat -> list nat -> nat -> Prop :=
| path_one x : path_from E x [x] x
| path_step x z p y : E x z -> path_from E z p y -> path_from E x (x :: p) y.
Definition simple_path E x p y := path_from E x p y /\ NoDup p.

Definition adjacent (E : nat -> nat -> Prop) u v := E u v \/ E v u.
Definition acyclic (E : nat -> nat -> Prop) := forall u, ~ clos_trans _ E u u.
Definition descendant (E : nat -> nat -> Prop) u v := clos_refl_trans _ E u v.

(** Pearl's blocking condition for a trail [p] and conditioning nodes [Z] *)
Definition collider (E : nat -> nat -> Prop) a b c := E a b /\ E c b.
Definition blocked (E : nat -> nat -> Prop) (Z : nat -> Prop) (p : list nat) :=
  exists p1 a b c p2, p = p1 ++ a :: b :: c :: p2 /\
    ((collider E a b c /\ forall d, descendant E b d -> ~ Z d) \/
     (~ collider E a b c /\ Z b)).
(** Pearl: x and y are d-separated by Z *)
Definition d_sep (E : nat -> nat -> Prop) (x : nat) (Z : nat -> Prop) (y : nat) :=
  forall p, simple_path (adjacent E) x p y -> blocked E Z p.

(** The rule that the library implements: a collider is opened only by itself or a direct child *)
Definition blocked1 (E : nat -> nat -> Prop) (Z : nat -> Prop) (p : list nat) :=
  exists p1 a b c p2, p = p1 ++ a :: b :: c :: p2 /\
    ((collider E a b c /\ ~ Z b /\ forall d, E b d -> ~ Z d) \/
     (~ collider E a b c /\ Z b)).
Definition d_sep1 (E : nat -> nat -> Prop) (x : nat) (Z : nat -> Prop) (y : nat) :=
  forall p, simple_path (adjacent E) x p y -> blocked1 E Z p.

(** Markov boundary of T in a DAG: parents, children, and other parents of children *)
Definition parent_or_child (E : nat -> nat -> Prop) T x := adjacent E T x.
Definition spouse (E : nat -> nat -> Prop) T x := x <> T /\ exists c, E T c /\ E x c.
Definition markov_boundary (E : nat -> nat -> Prop) T x := parent_or_child E T x \/ spouse E T x.

(** edges of a Python graph {node: [successors]} *)
Definition edge_of (g : list (nat * list nat)) (u v : nat) := exists l, assoc Nat.eqb u g = Some l /\ In v l.
(** edges of a network given as (ID, parents) pairs *)
Definition net_edge (net : list (nat * list nat)) (u v : nat) := exists ps, In (v, ps) net /\ In u ps.
