(** Model of a session with the objects that answer from a known network: a DSeparationCITest, a
    DSeparationAsCorrelationHeuristic and a BNCorrelationEstimator that share one BayesianNetwork
    (mbtk/math/DSeparationCITest.py:9-68, BNCorrelationEstimator.py:7-46), and what their end() methods write.

    Simplifications: as in DSep_Model.v; a file holds nothing or one pickled list. *)
From Verif Require Import Base Graph_Model MB_Model DSep_Model.
Local Open Scope nat_scope.

(** a question for the test (DSeparationCITest.py:18-21), for the d-separation heuristic (54-61), or for the estimator
    (BNCorrelationEstimator.py:18-39) *)
Inductive request := AskTest (X Y : nat) (Z : list nat) | AskDsep (X Y : nat) (Z : list nat) | AskEst (X Y : nat) (Z : list nat).
(** what is returned or raised [DSeparationCITest.py:18-61, BNCorrelationEstimator.py:18-39] *)
Inductive answer := Verdict (r : res bool) | Number (r : res Q).
(** one question (DSeparationCITest.py:18-61, BNCorrelationEstimator.py:18-39) *)
Definition ask (fuel : nat) (st : env) (q : request) : answer * env :=
  match q with
  | AskTest X Y Z => let (r, st') := dsep_ci fuel st X Y Z in (Verdict r, st')
  | AskDsep X Y Z => let (r, st') := dsep_heuristic fuel st X Y Z in (Number r, st')
  | AskEst X Y Z => let (r, st') := bn_correlation fuel st X Y Z in (Number r, st')
  end.
(** one after the other; a script catches what is raised and goes on [DSeparationCITest.py:18-61] *)
Fixpoint ask_all (fuel : nat) (st : env) (qs : list request) : list answer * env :=
  match qs with
  | [] => ([], st)
  | q :: qs' => let (a, st1) := ask fuel st q in let (l, st2) := ask_all fuel st1 qs' in (a :: l, st2)
  end.

(** the file at the save path: as it was, empty, or a pickled list [DSeparationCITest.py:44-48, 64-68] *)
Inductive saved := AsBefore | Emptied | TestResults (l : list ci_result) | Estimates (l : list h_result).
(** DSeparationCITest.end (44-48) *)
Definition end_test (save_path : bool) (st : env) : res unit * saved :=
  if save_path then (Ok tt, TestResults (e_ci st)) else (Ok tt, AsBefore).
(** DSeparationAsCorrelationHeuristic.end (64-68): the file is opened for writing, and self.heuristic_results does not exist *)
Definition end_dsep (save_path : bool) (st : env) : res unit * saved :=
  if save_path then (Err AttributeError, Emptied) else (Ok tt, AsBefore).
(** BNCorrelationEstimator.end (42-46) *)
Definition end_est (save_path : bool) (st : env) : res unit * saved :=
  if save_path then (Ok tt, Estimates (e_est st)) else (Ok tt, AsBefore).
