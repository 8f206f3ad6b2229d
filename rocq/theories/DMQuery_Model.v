(** Model of the read-only methods of mbtk/dataset/DatasetMatrix.py: get_matrix, get_row_count,
    get_column_count, get_column, get_column_by_label, get_column_labels, get_values_per_column,
    __eq__, diff and sparse_equal.
    Simplifications: those of Matrix_Model.v; both operands of == are datasets whose X and Y are
    assigned. *)
From Coq Require Import String Ascii.
From Verif Require Import Base Matrix_Model.
Open Scope nat_scope.

(** the answer that depends on matrix_label ('X', 'Y', or ValueError) (DatasetMatrix.py:86-91, 119-125,
    130-137, 150-155, 245-252) *)
Definition by_matrix {A} (matrix_label : string) (x y : A) : res A :=
  if String.eqb matrix_label "X" then Ok x else if String.eqb matrix_label "Y" then Ok y else Err ValueError.
(** get_matrix (DatasetMatrix.py:75-91) *)
Definition get_matrix (d : dmatrix) (ml : string) : res smat := by_matrix ml (dm_X d) (dm_Y d).
(** get_row_count (DatasetMatrix.py:94-96) *)
Definition get_row_count (d : dmatrix) (ml : string) : res nat := m <- get_matrix d ml ;; Ok (sm_nrows m).
(** get_column_count (DatasetMatrix.py:99-101) *)
Definition get_column_count (d : dmatrix) (ml : string) : res nat := m <- get_matrix d ml ;; Ok (sm_ncols m).
(** get_column_labels (DatasetMatrix.py:140-155) *)
Definition get_column_labels (d : dmatrix) (ml : string) : res (list text) := by_matrix ml (dm_labels_X d) (dm_labels_Y d).
(** get_column (DatasetMatrix.py:104-125); get_column_X and get_column_Y (158-183) *)
Definition dm_get_column (d : dmatrix) (ml : string) (c : Z) : res (list Z) := m <- get_matrix d ml ;; get_column m c.
(** == of two labels (DatasetMatrix.py:131, 134) *)
Definition label_eqb (a b : text) : bool := if list_eq_dec Nat.eq_dec a b then true else false.
(** list.index (DatasetMatrix.py:131, 134) *)
Fixpoint label_index (l : text) (labels : list text) : option nat :=
  match labels with [] => None | x :: labels' => if label_eqb x l then Some O else option_map S (label_index l labels') end.
(** get_column_by_label (DatasetMatrix.py:128-137) *)
Definition get_column_by_label (d : dmatrix) (ml : string) (l : text) : res (list Z) :=
  labels <- get_column_labels d ml ;;
  c <- of_option ValueError (label_index l labels) ;;
  dm_get_column d ml (Z.of_nat c).

(** list(numpy.unique(column)): sorted, each value once (DatasetMatrix.py:259) *)
Fixpoint insert_unique (x : Z) (l : list Z) : list Z :=
  match l with [] => [x] | y :: l' => if (x =? y)%Z then l else if (x <? y)%Z then x :: l else y :: insert_unique x l' end.
(** numpy.unique (DatasetMatrix.py:259) *)
Definition np_unique (l : list Z) : list Z := fold_right insert_unique [] l.
(** get_values_per_column (DatasetMatrix.py:243-262) *)
Definition get_values_per_column (d : dmatrix) (ml : string) : res (list (list Z)) :=
  m <- get_matrix d ml ;;
  mapM (fun c => column <- get_column m (Z.of_nat c) ;; Ok (np_unique column)) (seq 0 (sm_ncols m)).

(** (m1 != m2).nnz: the number of places where two matrices of one shape differ (DatasetMatrix.py:617) *)
Definition count_different (m1 m2 : smat) : nat :=
  length (filter (fun rc => negb (nth (snd rc) (nth (fst rc) (sm_rows m1) []) 0 =? nth (snd rc) (nth (fst rc) (sm_rows m2) []) 0)%Z)
                 (list_prod (seq 0 (sm_nrows m1)) (seq 0 (sm_ncols m1)))).
(** sparse_equal (DatasetMatrix.py:605-619) *)
Definition sparse_equal (m1 m2 : smat) : bool :=
  if negb ((sm_nrows m1 =? sm_nrows m2) && (sm_ncols m1 =? sm_ncols m2)) then false
  else if negb (count_different m1 m2 =? 0) then false else true.
(** == of two lists of labels (DatasetMatrix.py:568-573) *)
Definition labels_eqb (a b : list text) : bool := if list_eq_dec (list_eq_dec Nat.eq_dec) a b then true else false.
(** __eq__ (DatasetMatrix.py:559-578) *)
Definition dm_eqb (d e : dmatrix) : bool :=
  if negb (labels_eqb (dm_row_labels d) (dm_row_labels e)) then false else
  if negb (labels_eqb (dm_labels_X d) (dm_labels_X e)) then false else
  if negb (labels_eqb (dm_labels_Y d) (dm_labels_Y e)) then false else
  if negb (sparse_equal (dm_X d) (dm_X e)) then false else
  if negb (sparse_equal (dm_Y d) (dm_Y e)) then false else true.
(** str.strip() of a text with no white space but blanks (DatasetMatrix.py:597) *)
Fixpoint lstrip_blanks (s : string) : string :=
  match s with String c s' => if Ascii.eqb c " "%char then lstrip_blanks s' else s | EmptyString => EmptyString end.
(** reversal, to strip at the end (DatasetMatrix.py:597) *)
Fixpoint rev_string (s acc : string) : string := match s with EmptyString => acc | String c s' => rev_string s' (String c acc) end.
(** output.strip() (DatasetMatrix.py:597) *)
Definition strip_blanks (s : string) : string := rev_string (lstrip_blanks (rev_string (lstrip_blanks s) "")) "".
(** diff (DatasetMatrix.py:581-597) *)
Definition dm_diff (d e : dmatrix) : string :=
  let add (differ : bool) (name output : string) := if differ then String.append output name else output in
  strip_blanks
    (add (negb (sparse_equal (dm_Y d) (dm_Y e))) "Y"
    (add (negb (sparse_equal (dm_X d) (dm_X e))) "X "
    (add (negb (labels_eqb (dm_labels_Y d) (dm_labels_Y e))) "column_labels_Y "
    (add (negb (labels_eqb (dm_labels_X d) (dm_labels_X e))) "column_labels_X "
    (add (negb (labels_eqb (dm_row_labels d) (dm_row_labels e))) "row_labels " "")))))%string.
