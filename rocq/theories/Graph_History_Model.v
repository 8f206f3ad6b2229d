(** Histories of questions put to one network object (BayesianNetwork.py:364-451). *)
From Verif Require Import Base Graph_Model Graph_Spec.

(** the object after `finalize` (BayesianNetwork.py:294-295) *)
Definition bn_of_network (net : network) : bn :=
  {| graph_d := as_directed_graph net; graph_u := as_undirected_graph net; memo := [] |}.

(** BayesianNetwork.py:364-411, 445-492 *)
Inductive bn_call :=
| AskPaths (s e : nat)                       (* find_all_undirected_paths(s, e) *)
| AskSep (x : nat) (S : list nat) (y : nat)  (* d_separated(x, S, y) *)
| ReplaceGraph (order : list nat) (g : graph) (* from_directed_graph(g) on the same object *).
(** what these calls return (BayesianNetwork.py:364-411, 445-492) *)
Inductive bn_answer := Paths (ps : list (list nat)) | Verdict (b : bool) | Done.

(** one call (BayesianNetwork.py:364-411, 445-492) *)
Definition do_bn_call (c : bn_call) (b : bn) (fuel : nat) : res (bn_answer * bn) :=
  match c with
  | AskPaths s e => '(ps, b') <- find_all_undirected_paths s e b fuel ;; Ok (Paths ps, b')
  | AskSep x Z y => '(r, b') <- d_separated x Z y b fuel ;; Ok (Verdict r, b')
  | ReplaceGraph order g => Ok (Done, set_directed_graph order g b)
  end.
(** several calls on one object (BayesianNetwork.py:364-411, 445-492) *)
Fixpoint do_bn_calls (cs : list bn_call) (b : bn) (fuel : nat) : res (list bn_answer * bn) :=
  match cs with
  | [] => Ok ([], b)
  | c :: cs' => '(a, b1) <- do_bn_call c b fuel ;; '(l, b2) <- do_bn_calls cs' b1 fuel ;; Ok (a :: l, b2)
  end.

(** *** what the answers should be, for a graph with edges [E] [the calls that leave the graph as it is (BayesianNetwork.py:400-411, 445-492)] *)
Definition is_question (c : bn_call) := match c with ReplaceGraph _ _ => False | _ => True end.
(** specification of the answers, no code *)
Definition answer_ok (E : nat -> nat -> Prop) (c : bn_call) (a : bn_answer) : Prop :=
  match c, a with
  | AskPaths s e, Paths ps => NoDup ps /\ forall p, In p ps <-> simple_path (adjacent E) s p e
  | AskSep x Z y, Verdict r => r = true <-> d_sep1 E x (fun z => In z Z) y
  | _, _ => False
  end.
(** a Python dict has distinct keys; [order] is some iteration order of a set of nodes [specification of a Python dict as passed to BayesianNetwork.py:364] *)
Definition dict_ok (g : graph) := NoDup (map fst g).
(** BayesianNetwork.py:364-397 *)
Definition order_ok (order : list nat) (g : graph) :=
  NoDup order /\ forall n, In n order <-> (In n (map fst g) \/ exists u, edge_of g u n).
(** a finalised network: distinct IDs, no repeated parent, every parent is in the network [the networks that finalize accepts (BayesianNetwork.py:277-299)] *)
Definition network_ok (net : network) :=
  NoDup (map fst net) /\ Forall (fun node => NoDup (snd node)) net /\ forall u v, net_edge net u v -> In u (map fst net).
