(** Model of mbtk/dataset/DatasetMatrix.py: the in-memory operations (saving and loading are in
    Storage_Model.v).
    Simplifications: a scipy.sparse matrix is modelled by its dense content (list of rows) with its
    number of columns and its storage format; explicit zeros are therefore invisible, which makes
    eliminate_zeros() the identity.  Entries are integers.  X and Y have already been assigned
    (before that they are None).  List arguments are lists (the isinstance tests are not modelled).
    Labels are texts: lists of Unicode code points. *)
From Coq Require Import String.
From Verif Require Import Base.

(** strings as lists of code points, the labels of DatasetMatrix.py:48-56 *)
Definition text := list nat.

(** storage formats of scipy.sparse: compressed rows, compressed columns [DatasetMatrix.py:522-556] *)
Inductive format := CSR | CSC.
(** a scipy.sparse matrix: format, number of columns, rows (DatasetMatrix.py:48-56) *)
Record smat := SMat { sm_format : format; sm_ncols : nat; sm_rows : list (list Z) }.
(** m.shape[0] (DatasetMatrix.py:94-96) *)
Definition sm_nrows (m : smat) : nat := length (sm_rows m).

(** DatasetMatrix.__init__ (48-56): the attributes *)
Record dmatrix := DMat {
  dm_label : string;
  dm_X : smat;
  dm_Y : smat;
  dm_row_labels : list text;
  dm_labels_X : list text;
  dm_labels_Y : list text;
  dm_final : bool }.

(** self.X = m (DatasetMatrix.py:48-56) *)
Definition set_X (d : dmatrix) m := DMat (dm_label d) m (dm_Y d) (dm_row_labels d) (dm_labels_X d) (dm_labels_Y d) (dm_final d).
(** self.Y = m (DatasetMatrix.py:48-56) *)
Definition set_Y (d : dmatrix) m := DMat (dm_label d) (dm_X d) m (dm_row_labels d) (dm_labels_X d) (dm_labels_Y d) (dm_final d).
(** self.row_labels = l (DatasetMatrix.py:48-56) *)
Definition set_row_labels (d : dmatrix) l := DMat (dm_label d) (dm_X d) (dm_Y d) l (dm_labels_X d) (dm_labels_Y d) (dm_final d).
(** self.column_labels_X = l (DatasetMatrix.py:48-56) *)
Definition set_labels_X (d : dmatrix) l := DMat (dm_label d) (dm_X d) (dm_Y d) (dm_row_labels d) l (dm_labels_Y d) (dm_final d).
(** self.column_labels_Y = l (DatasetMatrix.py:48-56) *)
Definition set_labels_Y (d : dmatrix) l := DMat (dm_label d) (dm_X d) (dm_Y d) (dm_row_labels d) (dm_labels_X d) l (dm_final d).
(** self.final = b (DatasetMatrix.py:48-56) *)
Definition set_final (d : dmatrix) b := DMat (dm_label d) (dm_X d) (dm_Y d) (dm_row_labels d) (dm_labels_X d) (dm_labels_Y d) b.

(** ** Python and numpy indexing *)
(** an index [i] into a sequence of length [n]: negative ones count from the end [DatasetMatrix.py:104-125, 265-457] *)
Definition py_index (n : nat) (i : Z) : res nat :=
  if (0 <=? i)%Z && (i <? Z.of_nat n)%Z then Ok (Z.to_nat i)
  else if (- Z.of_nat n <=? i)%Z && (i <? 0)%Z then Ok (Z.to_nat (Z.of_nat n + i))
  else Err IndexError.
(** l[i] (DatasetMatrix.py:104-125, 265-457) *)
Definition py_get {A} (l : list A) (i : Z) : res A :=
  k <- py_index (length l) i ;; of_option IndexError (nth_error l k).
(** `[l[i] for i in idx]`, and fancy indexing l[idx, ] [DatasetMatrix.py:283-383] *)
Definition py_gather {A} (l : list A) (idx : list Z) : res (list A) := mapM (py_get l) idx.
(** drop the elements at the given positions [DatasetMatrix.py:386-457, 622-675] *)
Definition drop_positions {A} (ps : list nat) (l : list A) : list A :=
  map snd (filter (fun ix => negb (mem (fst ix) ps)) (combine (seq 0 (length l)) l)).
(** `del l[i]` [DatasetMatrix.py:265-280, 424-457] *)
Definition py_del {A} (l : list A) (i : Z) : res (list A) :=
  k <- py_index (length l) i ;; Ok (drop_positions [k] l).
(** `sorted` on integers [DatasetMatrix.py:386-421] *)
Fixpoint insert_Z (x : Z) (l : list Z) : list Z :=
  match l with [] => [x] | y :: l' => if (x <=? y)%Z then x :: l else y :: insert_Z x l' end.
(** sorted(l) (DatasetMatrix.py:386-421) *)
Definition sort_Z (l : list Z) : list Z := fold_right insert_Z [] l.
(** `i in l` [DatasetMatrix.py:386-421] *)
Definition mem_Z (i : Z) (l : list Z) : bool := existsb (Z.eqb i) l.

(** delete_rows_cols (622-679): mask[idx] = False raises IndexError for an index out of range *)
Definition delete_rows_cols (m : smat) (row_indices col_indices : list Z) : res smat :=
  match sm_format m with
  | CSC => Err ValueError
  | CSR =>
    match row_indices, col_indices with
    | [], [] => Ok m
    | _ :: _, [] =>
      ps <- mapM (py_index (sm_nrows m)) row_indices ;;
      Ok (SMat CSR (sm_ncols m) (drop_positions ps (sm_rows m)))
    | [], _ :: _ =>
      ps <- mapM (py_index (sm_ncols m)) col_indices ;;
      Ok (SMat CSR (length (drop_positions ps (repeat tt (sm_ncols m)))) (map (drop_positions ps) (sm_rows m)))
    | _ :: _, _ :: _ =>
      rps <- mapM (py_index (sm_nrows m)) row_indices ;;
      cps <- mapM (py_index (sm_ncols m)) col_indices ;;
      Ok (SMat CSR (length (drop_positions cps (repeat tt (sm_ncols m))))
               (map (drop_positions cps) (drop_positions rps (sm_rows m))))
    end
  end.

(** A method that modifies the object: the object afterwards (also when an exception escapes) and
    the outcome. [DatasetMatrix.py:265-457] *)
Definition outcome := (dmatrix * res unit)%type.
(** a computation that may raise, before the object is changed (DatasetMatrix.py:265-457) *)
Definition try_set {A} (d : dmatrix) (r : res A) (k : A -> outcome) : outcome :=
  match r with Ok a => k a | Err e => (d, Err e) end.

(** delete_row (265-280) *)
Definition delete_row (d : dmatrix) (r : Z) : outcome :=
  if dm_final d then (d, Err MatrixFinalized) else
  try_set d (delete_rows_cols (dm_X d) [r] []) (fun X' =>
  let d1 := set_X d X' in
  try_set d1 (delete_rows_cols (dm_Y d1) [r] []) (fun Y' =>
  let d2 := set_Y d1 Y' in
  try_set d2 (py_del (dm_row_labels d2) r) (fun labels =>
  (set_row_labels d2 labels, Ok tt)))).

(** keep_rows (283-310) *)
Definition keep_rows (d : dmatrix) (rows_to_keep : list Z) : outcome :=
  if dm_final d then (d, Err MatrixFinalized) else
  match rows_to_keep with
  | [] => (d, Err ValueError)
  | _ =>
    let all_rows := map Z.of_nat (seq 0 (sm_nrows (dm_X d))) in
    let rows_to_delete := filter (fun r => negb (mem_Z r rows_to_keep)) all_rows in
    try_set d (delete_rows_cols (dm_X d) rows_to_delete []) (fun X' =>
    let d1 := set_X d X' in
    try_set d1 (delete_rows_cols (dm_Y d1) rows_to_delete []) (fun Y' =>
    let d2 := set_Y d1 Y' in
    try_set d2 (py_gather (dm_row_labels d2) rows_to_keep) (fun labels =>
    (set_row_labels d2 labels, Ok tt))))
  end.

(** m[rows, ] and m[:, cols]: the format is kept [DatasetMatrix.py:283-345] *)
Definition take_rows (m : smat) (rows : list Z) : res smat :=
  rs <- py_gather (sm_rows m) rows ;; Ok (SMat (sm_format m) (sm_ncols m) rs).
(** m[:, cols] (DatasetMatrix.py:348-383) *)
Definition take_cols (m : smat) (cols : list Z) : res smat :=
  ps <- mapM (py_index (sm_ncols m)) cols ;;
  rs <- mapM (fun row => mapM (fun p => of_option IndexError (nth_error row p)) ps) (sm_rows m) ;;
  Ok (SMat (sm_format m) (length ps) rs).

(** select_rows (313-345): a new object; it is not final, but keeps the format of the source *)
Definition select_rows (d : dmatrix) (rows_to_keep : list Z) (new_label : string) : res dmatrix :=
  match rows_to_keep with
  | [] => Err ValueError
  | _ =>
    let rows := sort_Z rows_to_keep in
    let label := if String.eqb new_label "" then dm_label d else new_label in
    X' <- take_rows (dm_X d) rows ;;
    Y' <- take_rows (dm_Y d) rows ;;
    labels <- py_gather (dm_row_labels d) rows ;;
    Ok (DMat label X' Y' labels (dm_labels_X d) (dm_labels_Y d) false)
  end.
(** select_columns_X (348-383) *)
Definition select_columns_X (d : dmatrix) (columns_to_keep : list Z) (new_label : string) : res dmatrix :=
  match columns_to_keep with
  | [] => Err ValueError
  | _ =>
    let columns := sort_Z columns_to_keep in
    let label := if String.eqb new_label "" then dm_label d else new_label in
    X' <- take_cols (dm_X d) columns ;;
    labels <- py_gather (dm_labels_X d) columns ;;
    Ok (DMat label X' (dm_Y d) (dm_row_labels d) labels (dm_labels_Y d) false)
  end.

(** the label comprehension of delete_columns_X/Y (402, 421): positions that do not occur in the
    given list of (possibly negative) indices *)
Definition labels_not_in (labels : list text) (columns : list Z) : list text :=
  map snd (filter (fun ix => negb (mem_Z (Z.of_nat (fst ix)) columns)) (combine (seq 0 (length labels)) labels)).
(** delete_columns_X (386-402), delete_columns_Y (405-421) *)
Definition delete_columns_X (d : dmatrix) (columns_to_delete : list Z) : outcome :=
  if dm_final d then (d, Err MatrixFinalized) else
  let columns := sort_Z columns_to_delete in
  try_set d (delete_rows_cols (dm_X d) [] columns) (fun X' =>
  let d1 := set_X d X' in
  (set_labels_X d1 (labels_not_in (dm_labels_X d1) columns), Ok tt)).
(** delete_columns_Y (DatasetMatrix.py:405-421) *)
Definition delete_columns_Y (d : dmatrix) (columns_to_delete : list Z) : outcome :=
  if dm_final d then (d, Err MatrixFinalized) else
  let columns := sort_Z columns_to_delete in
  try_set d (delete_rows_cols (dm_Y d) [] columns) (fun Y' =>
  let d1 := set_Y d Y' in
  (set_labels_Y d1 (labels_not_in (dm_labels_Y d1) columns), Ok tt)).
(** delete_column_X (424-439), delete_column_Y (442-457) *)
Definition delete_column_X (d : dmatrix) (c : Z) : outcome :=
  if dm_final d then (d, Err MatrixFinalized) else
  try_set d (delete_rows_cols (dm_X d) [] [c]) (fun X' =>
  let d1 := set_X d X' in
  try_set d1 (py_del (dm_labels_X d1) c) (fun labels =>
  (set_labels_X d1 labels, Ok tt))).
(** delete_column_Y (DatasetMatrix.py:442-457) *)
Definition delete_column_Y (d : dmatrix) (c : Z) : outcome :=
  if dm_final d then (d, Err MatrixFinalized) else
  try_set d (delete_rows_cols (dm_Y d) [] [c]) (fun Y' =>
  let d1 := set_Y d Y' in
  try_set d1 (py_del (dm_labels_Y d1) c) (fun labels =>
  (set_labels_Y d1 labels, Ok tt))).

(** finalize (522-542): eliminate_zeros and check_format do not change the content *)
Definition to_format (f : format) (m : smat) : smat := SMat f (sm_ncols m) (sm_rows m).
(** finalize (DatasetMatrix.py:522-542) *)
Definition finalize (d : dmatrix) : dmatrix :=
  if dm_final d then d
  else set_final (set_Y (set_X d (to_format CSC (dm_X d))) (to_format CSC (dm_Y d))) true.
(** unfinalize (545-556) *)
Definition unfinalize (d : dmatrix) : dmatrix :=
  set_final (set_Y (set_X d (to_format CSR (dm_X d))) (to_format CSR (dm_Y d))) false.

(** get_column_X, get_column_Y (158-183): getcol raises IndexError out of range *)
Definition get_column (m : smat) (c : Z) : res (list Z) :=
  p <- py_index (sm_ncols m) c ;; mapM (fun row => of_option IndexError (nth_error row p)) (sm_rows m).

(** the operations that replace or modify the dataset in hand [DatasetMatrix.py:265-457, 522-556] *)
Inductive op :=
| DeleteRow (r : Z) | KeepRows (rows : list Z)
| SelectRows (rows : list Z) (label : string) | SelectColumnsX (cols : list Z) (label : string)
| DeleteColumnsX (cols : list Z) | DeleteColumnsY (cols : list Z)
| DeleteColumnX (c : Z) | DeleteColumnY (c : Z)
| Finalize | Unfinalize.
(** one call; after a selection the caller continues with the new dataset; when an exception
    escapes the caller continues with the object as the call left it [DatasetMatrix.py:265-457, 522-556] *)
Definition do_op (d : dmatrix) (o : op) : outcome :=
  match o with
  | DeleteRow r => delete_row d r
  | KeepRows rows => keep_rows d rows
  | SelectRows rows label => match select_rows d rows label with Ok d' => (d', Ok tt) | Err e => (d, Err e) end
  | SelectColumnsX cols label => match select_columns_X d cols label with Ok d' => (d', Ok tt) | Err e => (d, Err e) end
  | DeleteColumnsX cols => delete_columns_X d cols
  | DeleteColumnsY cols => delete_columns_Y d cols
  | DeleteColumnX c => delete_column_X d c
  | DeleteColumnY c => delete_column_Y d c
  | Finalize => (finalize d, Ok tt)
  | Unfinalize => (unfinalize d, Ok tt)
  end.
(** several calls (DatasetMatrix.py:265-457, 522-556) *)
Definition run_ops (d : dmatrix) (os : list op) : dmatrix := fold_left (fun d o => fst (do_op d o)) os d.
