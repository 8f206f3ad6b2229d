(** Model of get_parameters_by_index, get_parameters_index, create_slice_from_string
    (mbtk/utilities/experiment.py:356-385), and of AlgorithmAndClassifierRun.evaluate_classifier and
    evaluate_classifier_predictions (mbtk/experiment/AlgorithmRun.py:74-98).
    Simplifications: decimal digits are the ASCII ones; a classifier is given by what fit() and
    predict() compute. *)
From Coq Require Import String.
From Verif Require Import Base Matrix_Model Text_Model.
Open Scope nat_scope.

(** ** int(s) [experiment.py:371, 382] *)
Definition is_digit (c : nat) : bool := (48 <=? c) && (c <=? 57).
(** the digits after the first one: single underscores may separate digits [experiment.py:371, 382] *)
Fixpoint more_digits (acc : Z) (t : text) : option Z :=
  match t with
  | [] => Some acc
  | c :: t' =>
    if is_digit c then more_digits (10 * acc + Z.of_nat (c - 48)) t'
    else if c =? 95 then
      match t' with
      | d :: t'' => if is_digit d then more_digits (10 * acc + Z.of_nat (d - 48)) t'' else None
      | [] => None
      end
    else None
  end.
(** int() of digits without a sign (experiment.py:371, 382) *)
Definition unsigned (t : text) : option Z :=
  match t with
  | c :: t' => if is_digit c then more_digits (Z.of_nat (c - 48)) t' else None
  | [] => None
  end.
(** int(s): surrounding white space is ignored; 43 is '+', 45 is '-' *)
Definition py_int (s : text) : res Z :=
  of_option ValueError
    (match strip s with
     | c :: t => if c =? 45 then option_map Z.opp (unsigned t) else if c =? 43 then unsigned t else unsigned (c :: t)
     | [] => None
     end).
(** s.split(sep) for a single character [experiment.py:381] *)
Fixpoint split_from (sep : nat) (current : text) (t : text) : list text :=
  match t with
  | [] => [current]
  | c :: t' => if c =? sep then current :: split_from sep [] t' else split_from sep (current ++ [c]) t'
  end.
(** s.split(sep) (experiment.py:381) *)
Definition split_text (sep : nat) (t : text) : list text := split_from sep [] t.

(** a slice(start, stop) [experiment.py:372, 382] *)
Definition slice := (Z * Z)%type.
(** create_slice_from_string (380-382) *)
Definition create_slice_from_string (s : text) : res slice :=
  let parts := split_text 45 s in
  a <- (p <- of_option IndexError (nth_error parts 0) ;; py_int p) ;;
  b <- (p <- of_option IndexError (nth_error parts 1) ;; py_int p) ;;
  Ok (a, (b + 1)%Z).
(** get_parameters_index (365-377) *)
Definition get_parameters_index (index : option text) : res (option slice) :=
  match index with
  | None => Ok None
  | Some s =>
    match py_int s with
    | Ok k => Ok (Some (k, (k + 1)%Z))
    | Err ValueError => if mem 45 s then sl <- create_slice_from_string s ;; Ok (Some sl) else Err ValueError
    | Err e => Err e
    end
  end.
(** l[start:stop]: bounds below zero count from the end; then they are clipped to the list [experiment.py:361] *)
Definition slice_bound (n : nat) (z : Z) : nat :=
  Z.to_nat (Z.min (Z.of_nat n) (Z.max 0 (if (z <? 0)%Z then z + Z.of_nat n else z))).
(** l[start:stop] (experiment.py:361) *)
Definition py_slice {A} (l : list A) (sl : slice) : list A :=
  let a := slice_bound (length l) (fst sl) in
  let b := slice_bound (length l) (snd sl) in
  firstn (b - a) (skipn a l).
(** get_parameters_by_index (356-361) *)
Definition get_parameters_by_index {A} (index : option text) (params : list A) : res (list A) :=
  o <- get_parameters_index index ;;
  match o with None => Ok params | Some sl => Ok (py_slice params sl) end.

(** ** evaluate_classifier_predictions *)
(** numpy.logical_and(a, b) on two vectors: equal lengths, or one of length 1, else ValueError *)
Definition truthy (x : Z) : bool := negb (x =? 0)%Z.
(** numpy.logical_not (AlgorithmRun.py:91-92) *)
Definition logical_not (a : list bool) : list bool := map negb a.
(** numpy.logical_and (AlgorithmRun.py:94-97) *)
Definition logical_and (a b : list bool) : res (list bool) :=
  if length a =? length b then Ok (map (fun p => fst p && snd p) (combine a b))
  else match a, b with
       | [x], _ => Ok (map (andb x) b)
       | _, [y] => Ok (map (fun x => x && y) a)
       | _, _ => Err ValueError
       end.
(** numpy.sum (AlgorithmRun.py:94-97) *)
Definition numpy_sum (a : list bool) : nat := fold_right (fun (x : bool) n => (if x then 1 else 0) + n) 0 a.
(** the dictionary that is returned (AlgorithmRun.py:93-98) *)
Record evaluation := { TP : nat; TN : nat; FP : nat; FN : nat }.
(** evaluate_classifier_predictions (90-98) *)
Definition evaluate_classifier_predictions (expected predictions : list Z) : res evaluation :=
  let e := map truthy expected in
  let p := map truthy predictions in
  let ne := logical_not e in
  let np := logical_not p in
  tp <- logical_and e p ;; tn <- logical_and ne np ;; fp <- logical_and ne p ;; fn <- logical_and e np ;;
  Ok {| TP := numpy_sum tp; TN := numpy_sum tn; FP := numpy_sum fp; FN := numpy_sum fn |}.

(** evaluate_classifier (74-87); [mb] is what the algorithm returned *)
Definition evaluate_classifier {model : Type} (fit : smat -> list Z -> res model) (predict : model -> smat -> res (list Z))
  (train test : dmatrix) (mb : list nat) (objective_index : Z) : res evaluation :=
  let cols := map Z.of_nat mb in
  tr <- select_columns_X train cols "" ;;
  te <- select_columns_X test cols "" ;;
  ytr <- get_column (dm_Y tr) objective_index ;;
  yte <- get_column (dm_Y te) objective_index ;;
  m <- fit (dm_X tr) ytr ;;
  predictions <- predict m (dm_X te) ;;
  evaluate_classifier_predictions yte predictions.
