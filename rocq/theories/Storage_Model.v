(** Model of saving, loading, locking and deleting:
    DatasetMatrix.save / load (mbtk/dataset/DatasetMatrix.py:460-519),
    LockablePath (mbtk/utilities/LockablePath.py),
    ExperimentalDatasetDefinition, ExperimentalDataset, ModelBuildingExperimentalDataset.
    Simplifications: load() returns the loaded dataset instead of filling in the attributes of the
    object one by one; a file that was not written completely cannot be read (an exception); the
    Matrix Market format represents every sparse matrix exactly. *)
From Coq Require Import String.
From Verif Require Import Base Matrix_Model Text_Model FS_Model Split_Model.
Open Scope string_scope.
Open Scope list_scope.

(** util.ensure_folder (mbtk/utilities/functions.py:9-11) *)
Definition ensure_folder (p : path) : prog unit := mkdirs p.
(** util.save_matrix / load_matrix (15-31); mmread of a sparse matrix gives COO, converted to CSR *)
Definition save_matrix (p : path) (name : string) (m : smat) : prog unit :=
  write_file (p ++ [String.append name ".mtx"]) (CMatrix (sm_ncols m) (sm_rows m)).
(** load_matrix (functions.py:15-23) *)
Definition load_matrix (p : path) (name : string) : prog smat :=
  ReadFile (p ++ [String.append name ".mtx"]) (fun c =>
    match c with
    | None => Raise OSErr
    | Some (CMatrix ncols rows) => Ret (SMat CSR ncols rows)
    | Some _ => Raise ValueError
    end).
(** DatasetMatrix.py:483-490 *)
Definition save_labels (f : path) (labels : list text) : prog unit := write_file f (CText (write_labels labels)).
(** DatasetMatrix.py:510-517 *)
Definition load_labels (f : path) : prog (list text) :=
  ReadFile f (fun c =>
    match c with
    | None => Raise OSErr
    | Some (CText t) => Ret (read_labels t)
    | Some _ => Raise ValueError
    end).

(** DatasetMatrix.save (460-490) *)
Definition save_dm (d : dmatrix) (folder : path) : prog unit :=
  if negb (dm_final d) then Raise MatrixNotFinalized else
  let mp := folder ++ [dm_label d] in
  ensure_folder mp ;;;
  save_matrix mp "X" (dm_X d) ;;;
  save_matrix mp "Y" (dm_Y d) ;;;
  save_labels (mp ++ ["row_labels.txt"]) (dm_row_labels d) ;;;
  save_labels (mp ++ ["column_labels_X.txt"]) (dm_labels_X d) ;;;
  save_labels (mp ++ ["column_labels_Y.txt"]) (dm_labels_Y d).
(** DatasetMatrix.load (493-519), on an object with the given label and final flag *)
Definition load_dm (label : string) (was_final : bool) (folder : path) : prog dmatrix :=
  let mp := folder ++ [label] in
  X <~ load_matrix mp "X" ;;
  Y <~ load_matrix mp "Y" ;;
  rl <~ load_labels (mp ++ ["row_labels.txt"]) ;;
  lx <~ load_labels (mp ++ ["column_labels_X.txt"]) ;;
  ly <~ load_labels (mp ++ ["column_labels_Y.txt"]) ;;
  Ret (finalize (DMat label X Y rl lx ly was_final)).

(** *** LockablePath (mbtk/utilities/LockablePath.py) [LockablePath.py:9-11] *)
Record lockable := Lockable { lp_path : path; lp_default : string }.
(** get_lock (14-17) *)
Definition lock_name (lp : lockable) (lock_type : string) : string :=
  String.append "locked_" (if String.eqb lock_type "" then lp_default lp else lock_type).
(** get_lock (LockablePath.py:14-17) *)
Definition get_lock (lp : lockable) (lock_type : string) : path := lp_path lp ++ [lock_name lp lock_type].
(** folder_is_locked (20-25) *)
Definition folder_is_locked (lp : lockable) (lock_type : string) : prog bool :=
  if String.eqb lock_type "" then Glob (lp_path lp) "locked_" (fun l => Ret (match l with [] => false | _ => true end))
  else Exists (get_lock lp lock_type) (fun b => Ret b).
(** folder_exists (28-29) *)
Definition folder_exists (lp : lockable) : prog bool := Exists (lp_path lp) (fun b => Ret b).
(** lock_folder (36-42) *)
Definition lock_folder (lp : lockable) (lock_type : string) : prog unit :=
  let lock_type := if String.eqb lock_type "" then lp_default lp else lock_type in
  locked <~ folder_is_locked lp lock_type ;;
  if locked : bool then Ret tt else write_file (get_lock lp lock_type) (CText [108; 111; 99; 107; 101; 100]).
(** delete_folder (45-51) *)
Definition delete_folder (lp : lockable) : prog unit :=
  ex <~ folder_exists lp ;;
  if negb ex then Raise LockedErr else
  locked <~ folder_is_locked lp "" ;;
  if locked : bool then Raise LockedErr else rmtree (lp_path lp).
(** delete_subfolder (54-59) *)
Definition delete_subfolder (lp : lockable) (subfolder : string) : prog unit :=
  locked <~ folder_is_locked lp "" ;;
  if locked : bool then Raise LockedErr else
  Exists (lp_path lp ++ [subfolder]) (fun ex =>
    if negb ex then Raise LockedErr else rmtree (lp_path lp ++ [subfolder])).
(** unlock_folder (62-68) *)
Definition unlock_folder (lp : lockable) (lock_type : string) : prog unit :=
  let lock_type := if String.eqb lock_type "" then lp_default lp else lock_type in
  locked <~ folder_is_locked lp lock_type ;;
  if locked : bool then unlink (get_lock lp lock_type) else Ret tt.
(** ensure_folder (71-72) *)
Definition lp_ensure_folder (lp : lockable) : prog unit := mkdirs (lp_path lp).

(** *** ExperimentalDatasetDefinition (mbtk/dataset/ExperimentalDatasetDefinition.py:36-55) *)
Definition exds_definition (exds_folder : path) (name : string) : lockable := Lockable (exds_folder ++ [name]) "exds".
(** exds_ready (54-55) *)
Definition exds_ready (lp : lockable) : prog bool :=
  ex <~ folder_exists lp ;; if ex : bool then folder_is_locked lp "" else Ret false.

(** *** ExperimentalDataset and ModelBuildingExperimentalDataset *)
(** the matrices of a built dataset: one, or the full, training and testing ones [ModelBuildingExperimentalDataset.py:45-50, ExperimentalDataset.py:27-30] *)
Inductive built := Plain (m : dmatrix) | WithSplit (full train test : dmatrix).
(** finalize (ExperimentalDataset.py:83-91, ModelBuildingExperimentalDataset.py:78-81) *)
Definition finalize_built (b : built) : built :=
  match b with Plain m => Plain (finalize m) | WithSplit f tr te => WithSplit (finalize f) (finalize tr) (finalize te) end.
(** ExperimentalDataset.save (94-108) *)
Definition save_plain (lp : lockable) (m : dmatrix) : prog unit :=
  lp_ensure_folder lp ;;;
  locked <~ folder_is_locked lp "" ;;
  if locked : bool then Raise ExperimentalDatasetErr else save_dm m (lp_path lp).
(** ModelBuildingExperimentalDataset.save (84-102); the exception class named in its else branch is
    not imported there *)
Definition save_built (lp : lockable) (b : built) : prog unit :=
  match b with
  | Plain m => save_plain lp m
  | WithSplit f tr te =>
    save_plain lp f ;;;
    lp_ensure_folder lp ;;;
    locked <~ folder_is_locked lp "" ;;
    if locked : bool then Raise NameErr else save_dm tr (lp_path lp) ;;; save_dm te (lp_path lp)
  end.
(** finalize_and_save (ExperimentalDataset.py:76-80) *)
Definition finalize_and_save (lp : lockable) (auto_lock : bool) (b : built) : prog unit :=
  save_built lp (finalize_built b) ;;;
  if auto_lock then lock_folder lp "" else Ret tt.
(** build (ExperimentalDataset.py:33-73, ModelBuildingExperimentalDataset.py:53-75): [source] is what
    the dataset source and the split produce *)
Definition build (lp : lockable) (do_save auto_lock : bool) (source : res built) : prog unit :=
  b <~ lift source ;;
  if do_save then finalize_and_save lp auto_lock b else Ret tt.
(** load (ExperimentalDataset.py:111-123, ModelBuildingExperimentalDataset.py:105-113) *)
Definition load_built (lp : lockable) (with_split : bool) : prog built :=
  f <~ load_dm "dataset" false (lp_path lp) ;;
  if with_split then
    tr <~ load_dm "dataset_train" false (lp_path lp) ;;
    te <~ load_dm "dataset_test" false (lp_path lp) ;;
    Ret (WithSplit f tr te)
  else Ret (Plain f).
(** the use made of it (experiment/ExperimentRun.py:46-55, utilities/experiment.py:232-235): load
    only if ready *)
Definition load_if_ready (lp : lockable) (with_split : bool) : prog (option built) :=
  ready <~ exds_ready lp ;;
  if ready : bool then b <~ load_built lp with_split ;; Ret (Some b) else Ret None.
