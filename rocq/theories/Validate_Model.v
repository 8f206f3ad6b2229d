(** Model of validate_all_citrs_equal (experiments/experiment_dcmi/commands.py): the comparison of the CI test
    results of the algorithms with those of the unoptimized G-test. *)
From Coq Require Import Reals.
From Verif Require Import Base Matrix_Model Sources_Model CIResult_Model.
Open Scope Z_scope.

(** the key 'unoptimized' [commands.py:427] *)
Definition unoptimized : text := [117; 110; 111; 112; 116; 105; 109; 105; 122; 101; 100]%nat.
(** citr: from the name of an algorithm to its results, in the order of the tests [commands.py:426] *)
Definition citr := list (text * list ci_result).
(** the tolerance given to the reference result for the p-value [commands.py:431] *)
Definition p_tolerance : R := (1 / 1000000000)%R.
(** the tolerance given to the reference result for the statistic [commands.py:432] *)
Definition statistic_tolerance : R := (1 / 100000000)%R.
(** the inner loop, over zip(reference, citr[key]); the printing before the exception is left out [commands.py:430-439] *)
Fixpoint compare_results (reference results : list ci_result) : res unit :=
  match reference, results with
  | l :: reference', r :: results' =>
    same <- ci_eq (set_tolerances statistic_tolerance p_tolerance l) r ;;
    if same : bool then compare_results reference' results' else Err ValueError
  | _, _ => Ok tt
  end.
(** the loop over the keys [commands.py:428-430] *)
Fixpoint compare_all (reference : list ci_result) (entries : citr) : res unit :=
  match entries with
  | [] => Ok tt
  | (key, results) :: entries' =>
    if text_eqb key unoptimized then compare_all reference entries'
    else _ <- compare_results reference results ;; compare_all reference entries'
  end.
(** validate_all_citrs_equal [commands.py:426-439] *)
Definition validate_all_citrs_equal (c : citr) : res unit :=
  reference <- of_option KeyError (assoc text_eqb unoptimized c) ;; compare_all reference c.
