(** Vocabulary for stating what saving, loading and locking must do. *)
From Coq Require Import String.
From Verif Require Import Base Matrix_Model Text_Model FS_Model Storage_Model.
Open Scope string_scope.
Open Scope list_scope.

(** the five files in which a dataset matrix is kept *)
Definition matrix_files (mp : path) : list path :=
  [mp ++ ["X.mtx"]; mp ++ ["Y.mtx"]; mp ++ ["row_labels.txt"]; mp ++ ["column_labels_X.txt"]; mp ++ ["column_labels_Y.txt"]].
(** a file that was written to the end, with the given content *)
Definition file_is (s : fs) (p : path) (c : content) : Prop := lookup s p = Some (File c).
(** the five files hold the matrices and labels of [d] *)
Definition holds_matrix (s : fs) (folder : path) (d : dmatrix) : Prop :=
  let mp := folder ++ [dm_label d] in
  file_is s (mp ++ ["X.mtx"]) (CMatrix (sm_ncols (dm_X d)) (sm_rows (dm_X d))) /\
  file_is s (mp ++ ["Y.mtx"]) (CMatrix (sm_ncols (dm_Y d)) (sm_rows (dm_Y d))) /\
  file_is s (mp ++ ["row_labels.txt"]) (CText (write_labels (dm_row_labels d))) /\
  file_is s (mp ++ ["column_labels_X.txt"]) (CText (write_labels (dm_labels_X d))) /\
  file_is s (mp ++ ["column_labels_Y.txt"]) (CText (write_labels (dm_labels_Y d))).
(** nothing prevents writing in [mp]: no file where a folder is needed, no folder where a file is *)
Definition writable (s : fs) (mp : path) : Prop :=
  (forall q c, below mp q = true -> lookup s q <> Some (File c)) /\
  (forall q, In q (matrix_files mp) -> lookup s q <> Some Dir).

(** labels that can be stored one per line: no line breaks, no surrounding white space, and (unless
    there are no labels) a last one that is not empty *)
Definition storable_labels (l : list text) : Prop :=
  Forall (fun t => ~ In LF t /\ ~ In CR t /\
                   (forall c u, t = c :: u -> is_space c = false) /\ (forall c u, t = u ++ [c] -> is_space c = false)) l /\
  (l = [] \/ last l [0] <> []).

(** the dataset as it is read back: finalised, in compressed-column format *)
Definition read_back (d : dmatrix) : dmatrix :=
  DMat (dm_label d) (SMat CSC (sm_ncols (dm_X d)) (sm_rows (dm_X d))) (SMat CSC (sm_ncols (dm_Y d)) (sm_rows (dm_Y d)))
       (dm_row_labels d) (dm_labels_X d) (dm_labels_Y d) true.

(** the matrices of a built dataset *)
Definition parts (b : built) : list dmatrix :=
  match b with Plain m => [m] | WithSplit f tr te => [f; tr; te] end.
Definition has_split (b : built) : bool := match b with Plain _ => false | WithSplit _ _ _ => true end.
Definition read_back_built (b : built) : built :=
  match b with Plain m => Plain (read_back m) | WithSplit f tr te => WithSplit (read_back f) (read_back tr) (read_back te) end.
(** the labels under which build() creates its matrices *)
Definition part_labels (with_split : bool) : list string :=
  if with_split then ["dataset"; "dataset_train"; "dataset_test"] else ["dataset"].
Definition proper_labels (b : built) : Prop := map dm_label (parts b) = part_labels (has_split b).

(** the folder contains a lock file of any type *)
Definition locked (s : fs) (folder : path) : Prop :=
  exists name, prefix "locked_" name = true /\ lookup s (folder ++ [name]) <> None.
(** all files of all matrices are there, written to the end *)
Definition complete_text (s : fs) (p : path) : Prop := exists t, file_is s p (CText t).
Definition complete_matrix (s : fs) (p : path) : Prop := exists n rows, file_is s p (CMatrix n rows).
Definition complete_part (s : fs) (mp : path) : Prop :=
  complete_matrix s (mp ++ ["X.mtx"]) /\ complete_matrix s (mp ++ ["Y.mtx"]) /\
  complete_text s (mp ++ ["row_labels.txt"]) /\ complete_text s (mp ++ ["column_labels_X.txt"]) /\
  complete_text s (mp ++ ["column_labels_Y.txt"]).
Definition complete (s : fs) (folder : path) (with_split : bool) : Prop :=
  forall label, In label (part_labels with_split) -> complete_part s (folder ++ [label]).

(** white space, in the sense of Unicode: the characters that str.strip() removes *)
Definition white_space (c : nat) : Prop :=
  (9 <= c /\ c <= 13) \/ (28 <= c /\ c <= 32) \/ c = 133 \/ c = 160 \/ c = 5760 \/ (8192 <= c /\ c <= 8202) \/
  c = 8232 \/ c = 8233 \/ c = 8239 \/ c = 8287 \/ c = 12288.
