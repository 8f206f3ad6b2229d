(** Model of ModelBuildingExperimentalDataset.perform_random_dataset_split
    (mbtk/dataset/ModelBuildingExperimentalDataset.py:116-149) and of
    mbtk/dataset/BinaryExperimentalDataset.py.
    The outcome of random.sample(range(n), n) is a parameter [shuffled] (any permutation of the
    rows).  The requested fraction and the thresholds are exact rationals (floats in the code). *)
From Coq Require Import String QArith Qround.
From Verif Require Import Base Matrix_Model.
Open Scope nat_scope.

(** int(q): truncation toward zero [ModelBuildingExperimentalDataset.py:116-149] *)
Definition py_int (q : Q) : Z := if Qle_bool 0 q then Qfloor q else Qceiling q.
(** where the slice bound [k] falls in a list of length [n]: negative bounds count from the end [ModelBuildingExperimentalDataset.py:116-149] *)
Definition slice_bound (n : nat) (k : Z) : nat :=
  if (k <? 0)%Z then Z.to_nat (Z.max 0 (Z.of_nat n + k)) else Nat.min (Z.to_nat k) n.
(** l[:k] (ModelBuildingExperimentalDataset.py:116-149) *)
Definition slice_to {A} (l : list A) (k : Z) : list A := firstn (slice_bound (length l) k) l.
(** l[k:] (ModelBuildingExperimentalDataset.py:116-149) *)
Definition slice_from {A} (l : list A) (k : Z) : list A := skipn (slice_bound (length l) k) l.

(** the attributes matrix, matrix_train, matrix_test, train_rows, test_rows [ModelBuildingExperimentalDataset.py:45-50] *)
Record split := Split { s_full : dmatrix; s_train : dmatrix; s_test : dmatrix; s_train_rows : list nat; s_test_rows : list nat }.

(** perform_random_dataset_split (116-149) *)
Definition perform_split (matrix : dmatrix) (training_subset_size : Q) (shuffled : list nat) : res split :=
  let total_row_count := sm_nrows (dm_X matrix) in
  let train_rows_count := py_int (inject_Z (Z.of_nat total_row_count) * training_subset_size) in
  let train_rows := sort_nat (slice_to shuffled train_rows_count) in
  let test_rows := sort_nat (slice_from shuffled train_rows_count) in
  train <- select_rows matrix (map Z.of_nat train_rows) "dataset_train" ;;
  test <- select_rows matrix (map Z.of_nat test_rows) "dataset_test" ;;
  Ok (Split matrix train test train_rows test_rows).

(** *** BinaryExperimentalDataset [the pair of thresholds in the options (BinaryExperimentalDataset.py:53-70)] *)
Definition thresholds := option (Q * Q).
(** definition.options (BinaryExperimentalDataset.py:25-50) *)
Record binary_options := BinOpts {
  remove_features : bool;       (* options['remove_features_by_p_thresholds'] *)
  features_full : thresholds;   (* options['probability_thresholds__features']['full'], None if absent *)
  features_train : thresholds;
  features_test : thresholds;
  remove_objectives : bool;     (* options['remove_objectives_by_p_thresholds'] *)
  objectives_full : thresholds;
  objectives_train : thresholds;
  objectives_test : thresholds }.

(** thresholded_columns_to_remove (73-86): the keys of the returned dictionary.  With no rows p is
    nan and no comparison holds. *)
Definition out_of_bounds (pmin pmax : Q) (row_count : nat) (column : list Z) : bool :=
  match row_count with
  | O => false
  | _ => let p := (zsum column # Pos.of_nat row_count) in negb (Qle_bool pmin p) || negb (Qle_bool p pmax)
  end.
(** thresholded_columns_to_remove (BinaryExperimentalDataset.py:73-84) *)
Definition columns_to_remove (m : smat) (t : thresholds) : res (list nat) :=
  match t with
  | None => Ok []
  | Some (pmin, pmax) =>
    flags <- mapM (fun c => column <- get_column m (Z.of_nat c) ;; Ok (c, out_of_bounds pmin pmax (sm_nrows m) column)) (seq 0 (sm_ncols m)) ;;
    Ok (map fst (filter snd flags))
  end.

(** delete_columns_X (DatasetMatrix.py:386-402) called by BinaryExperimentalDataset.py:25-50 *)
Definition delete_X (d : dmatrix) (cs : list nat) : res dmatrix :=
  match delete_columns_X d (map Z.of_nat cs) with (d', Ok _) => Ok d' | (_, Err e) => Err e end.
(** delete_columns_Y (DatasetMatrix.py:405-421) called by BinaryExperimentalDataset.py:25-50 *)
Definition delete_Y (d : dmatrix) (cs : list nat) : res dmatrix :=
  match delete_columns_Y d (map Z.of_nat cs) with (d', Ok _) => Ok d' | (_, Err e) => Err e end.

(** process_before_split (25-32) *)
Definition process_before_split (o : binary_options) (matrix : dmatrix) : res dmatrix :=
  m1 <- (if remove_features o then cs <- columns_to_remove (dm_X matrix) (features_full o) ;; delete_X matrix cs else Ok matrix) ;;
  (if remove_objectives o then cs <- columns_to_remove (dm_Y m1) (objectives_full o) ;; delete_Y m1 cs else Ok m1).
(** process_after_split (35-50): the union of two sets; delete_columns_X sorts it *)
Definition union (a b : list nat) : list nat := a ++ filter (fun x => negb (mem x a)) b.
(** the part for the features (BinaryExperimentalDataset.py:35-50) *)
Definition after_features (o : binary_options) (s : split) : res split :=
  if remove_features o then
    train <- columns_to_remove (dm_X (s_train s)) (features_train o) ;;
    test <- columns_to_remove (dm_X (s_test s)) (features_test o) ;;
    full' <- delete_X (s_full s) (union train test) ;;
    train' <- delete_X (s_train s) (union train test) ;;
    test' <- delete_X (s_test s) (union train test) ;;
    Ok (Split full' train' test' (s_train_rows s) (s_test_rows s))
  else Ok s.
(** the part for the objectives (BinaryExperimentalDataset.py:35-50) *)
Definition after_objectives (o : binary_options) (s : split) : res split :=
  if remove_objectives o then
    train <- columns_to_remove (dm_Y (s_train s)) (objectives_train o) ;;
    test <- columns_to_remove (dm_Y (s_test s)) (objectives_test o) ;;
    full' <- delete_Y (s_full s) (union train test) ;;
    train' <- delete_Y (s_train s) (union train test) ;;
    test' <- delete_Y (s_test s) (union train test) ;;
    Ok (Split full' train' test' (s_train_rows s) (s_test_rows s))
  else Ok s.
(** BinaryExperimentalDataset.perform_random_dataset_split (19-22) *)
Definition perform_binary_split (o : binary_options) (matrix : dmatrix) (training_subset_size : Q) (shuffled : list nat) : res split :=
  m <- process_before_split o matrix ;;
  s <- perform_split m training_subset_size shuffled ;;
  s1 <- after_features o s ;;
  after_objectives o s1.
