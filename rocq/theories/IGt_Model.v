(** Model of mbtk/algorithms/basic/IGt.py.
    Simplifications: floats are exact reals; column labels and lazy column loading raise their
    IndexError at once; a dataset without rows makes the binary variant compute with nan
    (numpy division by 0): modelled as an error. *)
From Coq Require Import Reals.
From Verif Require Import Base Key_Model PMF_Model Matrix_Model.
Open Scope nat_scope.

(** DatasetMatrix.get_variable (DatasetMatrix.py:186-222) of the matrix [m] with labels [labels] *)
Definition matrix_variable (m : smat) (labels : list text) (c : Z) : res variable :=
  _ <- py_get labels c ;; col <- get_column m c ;; Ok {| vid := c; insts := col; array := true; lazy := true |}.

(** `sorted(pairs, key=itemgetter(1), reverse=True)`: descending; equal keys keep their order *)
Fixpoint insert_desc (x : nat * R) (l : list (nat * R)) : list (nat * R) :=
  match l with [] => [x] | y :: l' => if Rle_dec (snd y) (snd x) then x :: y :: l' else y :: insert_desc x l' end.
(** sorted(..., reverse=True) (IGt.py:25-41) *)
Definition sorted_desc (l : list (nat * R)) : list (nat * R) := fold_right insert_desc [] l.
(** `l[0:Q]` *)
Definition slice_to {A} (Q : Z) (l : list A) : list A :=
  if (Q <? 0)%Z then firstn (Z.to_nat (Z.of_nat (length l) + Q)) l else firstn (Z.to_nat Q) l.
(** the indices of the first Q pairs (IGt.py:25-41) *)
Definition best (Q : Z) (pairs : list (nat * R)) : list nat := map fst (slice_to Q (sorted_desc pairs)).

(** AlgorithmIGt.IGt (IGt.py:25-41); mutual_information has base 2 by default (infotheory.py:12) *)
Definition feature_IG (d : dmatrix) (objective : variable) (f : nat) : res R :=
  feature <- matrix_variable (dm_X d) (dm_labels_X d) (Z.of_nat f) ;;
  '(PXY, PX, PY) <- calculate_pmf_for_mi (Simple feature) (Simple objective) ;;
  mutual_information PXY PX PY Base2.
(** AlgorithmIGt.IGt (IGt.py:25-41) *)
Definition IGt (d : dmatrix) (Q objective_index : Z) : res (list nat) :=
  objective <- matrix_variable (dm_Y d) (dm_labels_Y d) objective_index ;;
  pairs <- mapM (fun f => ig <- feature_IG d objective f ;; Ok (f, ig)) (seq 0 (sm_ncols (dm_X d))) ;;
  Ok (best Q pairs).

(** calculate_pmf__binary (79-84), indexed by 0 and 1 *)
Definition pmf_binary (X : list Z) (x : bool) : R :=
  let p1 := (IZR (zsum X) / INR (length X))%R in if x then p1 else (1 - p1)%R.
(** calculate_joint_pmf2__binary (88-97): numpy.logical_and / logical_not / sum *)
Definition truthy (x : Z) : bool := negb (x =? 0)%Z.
(** calculate_joint_pmf2__binary (IGt.py:88-97) *)
Definition joint_binary (X Y : list Z) (x y : bool) : R :=
  let hits := filter (fun v => Bool.eqb (truthy (fst v)) x && Bool.eqb (truthy (snd v)) y) (combine X Y) in
  (INR (length hits) / INR (length X))%R.
(** MI__binary (62-75); math.log2 of a non-positive number is a ValueError *)
Definition MI_binary (X Y : list Z) : res R :=
  if length X =? 0 then Err ValueError else
  let pmi x y :=
    let marginals := (pmf_binary X x * pmf_binary Y y)%R in
    let joint := joint_binary X Y x y in
    if is_zero joint || is_zero marginals then Ok 0%R
    else l <- log_fun Base2 (joint / marginals)%R ;; Ok (joint * l)%R in
  a <- pmi false false ;; b <- pmi false true ;; c <- pmi true false ;; d <- pmi true true ;;
  Ok (a + b + c + d)%R.
(** algorithm_IGt__binary (45-58) *)
Definition IGt_binary (d : dmatrix) (Q objective_index : Z) : res (list nat) :=
  objective <- get_column (dm_Y d) objective_index ;;
  pairs <- mapM (fun f => feature <- get_column (dm_X d) (Z.of_nat f) ;; ig <- MI_binary feature objective ;; Ok (f, ig))
                (seq 0 (sm_ncols (dm_X d))) ;;
  Ok (best Q pairs).
