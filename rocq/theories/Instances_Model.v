(** Model of PMF.create_instances_list and PMF.min_instance_count_for_accuracy (PMF.py:139-166).
    Probabilities are exact rationals (in the code: floats).  The lazy iterator that the code
    returns is modelled by the list of its elements. *)
From Coq Require Import QArith Qround Qminmax.
From Verif Require Import Base Key_Model.
Open Scope Z_scope.

(** Python's round(x): to the nearest integer, ties to the even one [PMF.py:146-166] *)
Definition py_round (q : Q) : Z :=
  let f := Qfloor q in
  match (q - inject_Z f ?= 1#2)%Q with Lt => f | Gt => f + 1 | Eq => if Z.even f then f else f + 1 end.

(** `sorted(self.keys(), key=lambda k: self.probabilities[k], reverse=True)` (147): stable, so
    equally likely keys stay in the order of the dictionary.  The keys are listed with their
    probabilities. *)
Fixpoint insert_desc (x : pyobj * Q) (l : list (pyobj * Q)) : list (pyobj * Q) :=
  match l with [] => [x] | y :: l' => if Qle_bool (snd y) (snd x) then x :: y :: l' else y :: insert_desc x l' end.
(** sorted(..., reverse=True) (PMF.py:147) *)
Definition sorted_desc (l : list (pyobj * Q)) : list (pyobj * Q) := fold_right insert_desc [] l.

(** the loop (152-160): returns the instances and the final `running_instance_count`;
    itertools.repeat with a negative count is empty *)
Fixpoint fill (n running : Z) (keys : list (pyobj * Q)) : list pyobj * Z :=
  match keys with
  | [] => ([], running)
  | (key, probability) :: keys' =>
    let c := Z.max 1 (py_round (inject_Z n * probability)) in
    let c := if running <? c then running else c in
    let running' := running - c in
    if running' =? 0 then (repeat key (Z.to_nat c), running')
    else let '(l, r) := fill n running' keys' in (repeat key (Z.to_nat c) ++ l, r)
  end.
(** create_instances_list (146-166); None: the recursion is deeper than [fuel] *)
Fixpoint create_instances_list (fuel : nat) (probabilities : list (pyobj * Q)) (n : Z) : option (list pyobj) :=
  match fuel with
  | O => None
  | S fuel' =>
    let '(instances, running) := fill n n (sorted_desc probabilities) in
    if 0 <? running then
      match create_instances_list fuel' probabilities running with
      | None => None
      | Some extra => Some (instances ++ extra)
      end
    else Some instances
  end.

(** min_instance_count_for_accuracy (139-143): `filter(None, ...)` drops the zeros; min() of an
    empty list is a ValueError *)
Definition min_instance_count (probabilities : list (pyobj * Q)) : res Z :=
  match filter (fun q => negb (Qeq_bool q 0)) (map snd probabilities) with
  | [] => Err ValueError
  | q :: qs => Ok (py_round (/ fold_left Qmin qs q))
  end.
