(** The conditional independence tests over a set of features and what they need, in terms of membership
    (independent of how GtestEnum_Model.v enumerates and counts them). *)
From Verif Require Import Base GtestEnum_Model.
Open Scope nat_scope.

(** a test of X and Y given Z over the features F; the pair is kept with the smaller one first and the set Z
    as an increasing list, so that each test is written in one way *)
Definition is_test (F : list nat) (t : test) : Prop :=
  tX t < tY t /\ In (tX t) F /\ In (tY t) F /\ StronglySorted lt (tZ t) /\
  (forall z, In z (tZ t) -> In z F /\ z <> tX t /\ z <> tY t).
(** the test needs the joint entropy H(J): J is one of XZ, YZ, XYZ, Z *)
Definition needs (t : test) (J : list nat) : Prop :=
  (forall v, In v J <-> In v (tZ t) \/ v = tX t) \/
  (forall v, In v J <-> In v (tZ t) \/ v = tY t) \/
  (forall v, In v J <-> In v (tZ t) \/ v = tX t \/ v = tY t) \/
  (forall v, In v J <-> In v (tZ t)).
(** exactly n tests have the property P *)
Definition exactly (n : nat) (P : test -> Prop) : Prop :=
  exists l, NoDup l /\ length l = n /\ forall t, In t l <-> P t.
(** the number of pairs of n things *)
Definition pairs_of (n : nat) : nat := n * (n - 1) / 2.
(** n things, k of them, in any order *)
Fixpoint choose (n k : nat) : nat :=
  match n, k with _, 0 => 1 | 0, S _ => 0 | S n', S k' => choose n' k' + choose n' k end.
