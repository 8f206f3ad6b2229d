(** What a session with the objects that answer from a known network is to give. *)
From Verif Require Import Base Graph_Model Graph_Spec MB_Spec DSep_Model DSep_Spec Oracle_Model.
Local Open Scope nat_scope.

(** the variable X of a question *)
Definition about (q : request) : nat := match q with AskTest X _ _ | AskDsep X _ _ | AskEst X _ _ => X end.
(** the right answer over the graph with the edges [E] *)
Definition right_answer (E : nat -> nat -> Prop) (q : request) (a : answer) : Prop :=
  match q with
  | AskTest X Y Z => (library_rule E X Z Y /\ a = Verdict (Ok true)) \/ (~ library_rule E X Z Y /\ a = Verdict (Ok false))
  | AskDsep X Y Z => (library_rule E X Z Y /\ a = Number (Ok 0%Q)) \/ (~ library_rule E X Z Y /\ a = Number (Ok 1%Q))
  | AskEst X Y Z =>
      (Z <> [] /\ library_rule E X Z Y /\ a = Number (Ok 0%Q)) \/
      ((Z = [] \/ ~ library_rule E X Z Y) /\ exists n, distance_nodes E X Y n /\ a = Number (Ok (1 / inject_Z (Z.of_nat n))%Q)) \/
      (Z = [] /\ ~ connected E X Y /\ a = Number (Err ValueError))
  end.
(** the log of the test: every question answered, with its verdict *)
Definition verdicts (l : list (request * answer)) : list (nat * nat * list nat * bool) :=
  flat_map (fun qa => match qa with (AskTest X Y Z, Verdict (Ok v)) => [(X, Y, Z, v)] | _ => [] end) l.
(** the log of the d-separation heuristic: 0 stands for independent *)
Definition separations (l : list (request * answer)) : list (nat * nat * list nat * bool) :=
  flat_map (fun qa => match qa with (AskDsep X Y Z, Number (Ok v)) => [(X, Y, Z, Qeq_bool v 0)] | _ => [] end) l.
(** the log of the estimator: every number above 0 *)
Definition estimates (l : list (request * answer)) : list (nat * nat * list nat * Q) :=
  flat_map (fun qa => match qa with (AskEst X Y Z, Number (Ok v)) => if Qeq_bool v 0 then [] else [(X, Y, Z, v)] | _ => [] end) l.
(** numbered 0, 1, 2, ... *)
Definition numbered {A} (index : A -> nat) (l : list A) : Prop := map index l = seq 0 (length l).
