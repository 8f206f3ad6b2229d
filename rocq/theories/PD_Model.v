(** Model of comparing, copying and printing a ProbabilityDistributionOfVariableNode
    (mbtk/structures/BayesianNetwork.py:645-755).

    Simplifications: those of BN_Model; the floats are exact reals.  A distribution is given by its
    table and the names of its conditioning variables, in order; `properties` is left out. *)
From Coq Require Import Reals.
From Verif Require Import Base BN_Model.
Open Scope nat_scope.

(** the fields of a ProbabilityDistributionOfVariableNode (652-665): probabilities,
    conditioning_variable_nodes (names), cummulative_probabilities, and whether
    probabilities_with_indexed_conditioning was filled in *)
Record dist := { d_probs : list (key * list R); d_cond : list nat; d_cumul : list (key * list R); d_indexed : bool }.

(** `list == list` of floats [BayesianNetwork.py:675] *)
Fixpoint row_eqb (a b : list R) : bool :=
  match a, b with
  | [], [] => true
  | x :: a', y :: b' => if Req_EM_T x y then row_eqb a' b' else false
  | _, _ => false
  end.
(** `dict == dict`: equally many keys, and every key of the one has an equal value in the other [BayesianNetwork.py:675] *)
Definition dict_eqb (d e : list (key * list R)) : bool :=
  ((length d =? length e) && forallb (fun kr => match assoc key_eqb (fst kr) e with Some r => row_eqb (snd kr) r | None => false end) d)%bool.
(** ProbabilityDistributionOfVariableNode.__eq__ (668-683).  The loop runs over the keys of the two
    OrderedDicts, which are names: `ourVar.values` fails as soon as it is evaluated, that is, as soon
    as eq_probabilities is still true. *)
Definition dist_eq (a b : dist) : res bool :=
  let eq_probabilities := dict_eqb (d_probs a) (d_probs b) in
  if negb (length (d_cond a) =? length (d_cond b)) then Ok (eq_probabilities && false)%bool
  else
    e <- foldM (fun e _ => if e : bool then Err AttributeError else Ok false) (combine (d_cond a) (d_cond b)) eq_probabilities ;;
    Ok (e && true)%bool.
(** ProbabilityDistributionOfVariableNode.copy (712-727): the indexed table is not copied *)
Definition dist_copy (a : dist) : dist := {| d_probs := d_probs a; d_cond := d_cond a; d_cumul := d_cumul a; d_indexed := false |}.
(** ProbabilityDistributionOfVariableNode.finalize (686-689), for a table all of whose conditioning
    values are known *)
Definition dist_finalize (a : dist) : dist :=
  {| d_probs := d_probs a; d_cond := d_cond a; d_cumul := map (fun kr => (fst kr, cumulative (snd kr))) (d_probs a);
     d_indexed := (d_indexed a || negb (existsb (fun kr => match fst kr with None => true | _ => false end) (d_probs a)))%bool |}.
(** __str__ (745-749): the text has two shapes; `conditioning_variable_names` does not exist *)
Definition dist_str (a : dist) : res unit := match d_cond a with [] => Ok tt | _ => Err AttributeError end.
(** ProbabilityDistributionOfVariableNode.sample for a given roll (730-742) *)
Definition dist_sample (a : dist) (k : key) (roll : R) : res (option nat) :=
  row <- of_option KeyError (assoc key_eqb k (d_cumul a)) ;; Ok (sample_roll roll row).
(** d.probabilities[k] = row (652-665) *)
Definition dist_edit (k : key) (row : list R) (a : dist) : dist :=
  {| d_probs := assoc_set key_eqb k row (d_probs a); d_cond := d_cond a; d_cumul := d_cumul a; d_indexed := d_indexed a |}.

(** Two variables of a program that refer to distribution objects: [heap] of objects, `b = a.copy()` makes a new
    one, everything else works on one object. [BayesianNetwork.py:645-755] *)
Inductive dop := DCopy (r : nat) | DFinalize (r : nat) | DEdit (r : nat) (k : key) (row : list R).
(** replacing an object of the heap (645-755) *)
Definition upd {A} (f : A -> A) (r : nat) (l : list A) : list A := map (fun ix => if Nat.eqb (fst ix) r then f (snd ix) else snd ix) (combine (seq 0 (length l)) l).
(** one request [BayesianNetwork.py:645-755] *)
Definition dstep (h : list dist) (a : dop) : list dist :=
  match a with
  | DCopy r => match nth_error h r with Some d => h ++ [dist_copy d] | None => h end
  | DFinalize r => upd dist_finalize r h
  | DEdit r k row => upd (dist_edit k row) r h
  end.
