(** Runs of the algorithms against a known network: what is being run. *)
From Verif Require Import Base Graph_Model Graph_Spec Graph_History_Model.

(** [b] is a network object as the library builds it - from a finalised network, or from a directed
    graph - with nodes [U] and edges [E] *)
Definition network_object (U : list nat) (E : nat -> nat -> Prop) (b : bn) :=
  (exists net, network_ok net /\ b = bn_of_network net /\ (forall x, In x U <-> In x (map fst net)) /\ (forall u v, E u v <-> net_edge net u v)) \/
  (exists g order, dict_ok g /\ order_ok order g /\ b = new_bn order g /\ (forall x, In x U <-> In x order) /\ (forall u v, E u v <-> edge_of g u v)).

(** x and y are in the same component of the graph, edge directions ignored *)
Definition connected (E : nat -> nat -> Prop) := clos_refl_trans _ (adjacent E).

(** [n] is the number of nodes on a shortest path *)
Definition distance_nodes (E : nat -> nat -> Prop) x y n :=
  (exists p, simple_path (adjacent E) x p y /\ length p = n) /\
  (forall p, path_from (adjacent E) x p y -> (n <= length p)%nat).
