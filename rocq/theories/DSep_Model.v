(** Model of mbtk/math/DSeparationCITest.py and BNCorrelationEstimator.py: the CI test and the two
    correlation heuristics that answer from the graph of a known network.
    Simplified: timings and the statistic/distribution fields of a result (constants) are left out;
    a float is a rational number. *)
From Coq Require Export QArith.
From Verif Require Import Base Graph_Model MB_Model.

(** CITestResult as filled in by conditionally_independent_result (24-41) *)
Record ci_result := { r_index : nat; r_X : nat; r_Y : nat; r_Z : list nat; r_independent : bool }.
(** HeuristicResult of BNCorrelationEstimator.compute (33-36) *)
Record h_result := { h_index : nat; h_X : nat; h_Y : nat; h_Z : list nat; h_value : Q }.

(** the CI test object, the heuristic object, and the network they share [DSeparationCITest.py:11-15, BNCorrelationEstimator.py:9-15] *)
Record env := { e_bn : bn; e_ci : list ci_result; e_h : list ci_result; e_est : list h_result }.

(** DSeparationCITest.conditionally_independent(_result) (18-41) *)
Definition dsep_ci (fuel : nat) (st : env) (X Y : nat) (Z : list nat) : res bool * env :=
  match conditionally_independent X Y Z (e_bn st) fuel with
  | Ok (r, b) => (Ok r, {| e_bn := b; e_h := e_h st; e_est := e_est st;
       e_ci := e_ci st ++ [{| r_index := length (e_ci st); r_X := X; r_Y := Y; r_Z := Z; r_independent := r |}] |})
  | Err e => (Err e, st)
  end.
(** DSeparationAsCorrelationHeuristic.compute (54-61): its own list of results *)
Definition dsep_heuristic (fuel : nat) (st : env) (X Y : nat) (Z : list nat) : res Q * env :=
  match conditionally_independent X Y Z (e_bn st) fuel with
  | Ok (r, b) => (Ok (if r then 0 else 1)%Q, {| e_bn := b; e_ci := e_ci st; e_est := e_est st;
       e_h := e_h st ++ [{| r_index := length (e_h st); r_X := X; r_Y := Y; r_Z := Z; r_independent := r |}] |})
  | Err e => (Err e, st)
  end.

(** `min(paths, key=len)` [BNCorrelationEstimator.py:18-37] *)
Fixpoint min_by_len (best : list nat) (l : list (list nat)) : list nat :=
  match l with
  | [] => best
  | p :: l' => min_by_len (if (length p <? length best)%nat then p else best) l'
  end.
(** min(paths, key=len), ValueError when there is none (BNCorrelationEstimator.py:18-37) *)
Definition shortest_path (l : list (list nat)) : res (list nat) :=
  match l with [] => Err ValueError | p :: l' => Ok (min_by_len p l') end.
(** BNCorrelationEstimator.compute (18-37): second half, after the independence check *)
Definition estimate (fuel : nat) (st : env) (b : bn) (X Y : nat) (Z : list nat) : res Q * env :=
  match find_all_undirected_paths X Y b fuel with
  | Ok (paths, b') =>
    match shortest_path paths with
    | Ok p => let v := (1 / inject_Z (Z.of_nat (length p)))%Q in
              (Ok v, {| e_bn := b'; e_ci := e_ci st; e_h := e_h st;
                 e_est := e_est st ++ [{| h_index := length (e_est st); h_X := X; h_Y := Y; h_Z := Z; h_value := v |}] |})
    | Err e => (Err e, {| e_bn := b'; e_ci := e_ci st; e_h := e_h st; e_est := e_est st |})
    end
  | Err e => (Err e, st)
  end.
(** BNCorrelationEstimator.compute (BNCorrelationEstimator.py:18-37) *)
Definition bn_correlation (fuel : nat) (st : env) (X Y : nat) (Z : list nat) : res Q * env :=
  match Z with
  | [] => estimate fuel st (e_bn st) X Y Z
  | _ => match conditionally_independent X Y Z (e_bn st) fuel with
         | Ok (true, b) => (Ok 0%Q, {| e_bn := b; e_ci := e_ci st; e_h := e_h st; e_est := e_est st |})
         | Ok (false, b) => estimate fuel st b X Y Z
         | Err e => (Err e, st)
         end
  end.

(** `a > b` on numbers [iamb.py:74-99] *)
Definition q_gt (a b : Q) : bool := negb (Qle_bool a b).

(** freshly constructed CI test and heuristic over the network object [b] (11-15, 9-15) *)
Definition fresh (b : bn) : env := {| e_bn := b; e_ci := []; e_h := []; e_est := [] |}.
