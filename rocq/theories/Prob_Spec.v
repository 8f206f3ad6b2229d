(** Finite probability spaces: what probability tables, entropies and mutual information mean.
    Nothing here refers to the code. *)
From Coq Require Import Reals.
From Verif Require Import Base Key_Model Key_Spec.
Open Scope R_scope.

Fixpoint Sum (l : list R) : R := match l with [] => 0 | x :: l' => x + Sum l' end.

(** finitely many outcomes with weights *)
Record space (A : Type) := { outcomes : list A; weight : A -> R }.
Arguments outcomes {A}. Arguments weight {A}.
Definition is_probability {A} (S : space A) : Prop :=
  (forall a, In a (outcomes S) -> 0 <= weight S a) /\ Sum (map (weight S) (outcomes S)) = 1.

(** probability of an event *)
Definition pr {A} (S : space A) (ev : A -> bool) : R := Sum (map (weight S) (filter ev (outcomes S))).

(** a random variable (or tuple of random variables) gives each outcome a tuple of integers *)
Definition eqv (v w : list Z) : bool := if list_eq_dec Z.eq_dec v w then true else false.
Definition pr1 {A} (S : space A) (X : A -> list Z) x := pr S (fun a => eqv (X a) x).
Definition pr2 {A} (S : space A) (X : A -> list Z) x (Y : A -> list Z) y := pr S (fun a => eqv (X a) x && eqv (Y a) y)%bool.
Definition pr3 {A} (S : space A) (X : A -> list Z) x (Y : A -> list Z) y (Z : A -> list BinNums.Z) z :=
  pr S (fun a => eqv (X a) x && eqv (Y a) y && eqv (Z a) z)%bool.

(** conditional independence of X and Y given Z *)
Definition cond_independent {A} (S : space A) X Y Z : Prop :=
  forall x y z, pr3 S X x Y y Z z * pr1 S Z z = pr2 S X x Z z * pr2 S Y y Z z.
Definition independent {A} (S : space A) X Y : Prop :=
  forall x y, pr2 S X x Y y = pr1 S X x * pr1 S Y y.

(** conditional mutual information: the expectation of
    ln (p(x,y,z) p(z) / (p(x,z) p(y,z))) *)
Definition cmi {A} (S : space A) X Y Z : R :=
  Sum (map (fun a => weight S a *
        ln (pr3 S X (X a) Y (Y a) Z (Z a) * pr1 S Z (Z a) / (pr2 S X (X a) Z (Z a) * pr2 S Y (Y a) Z (Z a)))) (outcomes S)).
(** mutual information: the expectation of ln (p(x,y) / (p(x) p(y))) *)
Definition mi {A} (S : space A) X Y : R :=
  Sum (map (fun a => weight S a * ln (pr2 S X (X a) Y (Y a) / (pr1 S X (X a) * pr1 S Y (Y a)))) (outcomes S)).
(** entropy: the expectation of - ln p(x) *)
Definition entropy {A} (S : space A) X : R := - Sum (map (fun a => weight S a * ln (pr1 S X (X a))) (outcomes S)).

(** A dictionary of probabilities is the distribution of X (keys may be nested, values that never
    occur may be listed with probability 0). *)
Definition distribution {A} (S : space A) (X : A -> list Z) (d : list (pyobj * R)) : Prop :=
  NoDup (map (fun kv => leaves (fst kv)) d) /\
  (forall k r, In (k, r) d -> r = pr1 S X (leaves k)) /\
  (forall v, pr1 S X v <> 0 -> exists k r, In (k, r) d /\ leaves k = v).
(** ... the distribution of X given Z = z *)
Definition conditional_distribution {A} (S : space A) (X Z : A -> list Z) z (d : list (pyobj * R)) : Prop :=
  NoDup (map (fun kv => leaves (fst kv)) d) /\
  (forall k r, In (k, r) d -> r = pr2 S X (leaves k) Z z / pr1 S Z z) /\
  (forall v, pr2 S X v Z z <> 0 -> exists k r, In (k, r) d /\ leaves k = v).
(** keys are in the form in which they are looked up: a tuple of integers, a single one unwrapped *)
Definition plain_keys {V} (d : list (pyobj * V)) : Prop := forall k r, In (k, r) d -> k = as_key (leaves k).

(** the tuples of a data table, each row equally likely *)
Definition uniform {A} (l : list A) : space A := {| outcomes := l; weight := fun _ => / INR (length l) |}.
