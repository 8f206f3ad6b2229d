(** Model of a ModelBuildingExperimentalDataset object in the hands of a program
    (mbtk/dataset/ModelBuildingExperimentalDataset.py, ExperimentalDataset.py): its attributes, the DatasetMatrix objects
    they refer to, and the order in which build, load, finalize and save change them, also when they raise half-way.

    Simplifications: those of Matrix_Model.v, Split_Model.v and Storage_Model.v (what the dataset source and random.sample
    return are parameters; the fraction is a rational number); nothing else happens on the disk while a call runs, but anything may
    happen between two calls; `metadata` is left out. *)
From Coq Require Import String QArith.
From Verif Require Import Base Matrix_Model Text_Model FS_Model Split_Model Storage_Model.
Open Scope string_scope.
Open Scope list_scope.

(** a DatasetMatrix object, whose X and Y are None at first (DatasetMatrix.py:48-56) *)
Record dmobj := DMObj { j_label : string; j_X : option smat; j_Y : option smat; j_rows : list text; j_colsX : list text; j_colsY : list text; j_final : bool }.
(** a DatasetMatrix whose X and Y are there (DatasetMatrix.py:48-56) *)
Definition of_dm (d : dmatrix) : dmobj := DMObj (dm_label d) (Some (dm_X d)) (Some (dm_Y d)) (dm_row_labels d) (dm_labels_X d) (dm_labels_Y d) (dm_final d).
(** ... and back (DatasetMatrix.py:48-56) *)
Definition as_dm (o : dmobj) : option dmatrix :=
  match j_X o, j_Y o with Some X, Some Y => Some (DMat (j_label o) X Y (j_rows o) (j_colsX o) (j_colsY o) (j_final o)) | _, _ => None end.
(** DatasetMatrix(label) (DatasetMatrix.py:48-56) *)
Definition new_dm (label : string) : dmobj := DMObj label None None [] [] [] false.
(** assignments to the attributes (DatasetMatrix.py:507-517) *)
Definition put_X (m : smat) (o : dmobj) : dmobj := DMObj (j_label o) (Some m) (j_Y o) (j_rows o) (j_colsX o) (j_colsY o) (j_final o).
(** self.Y = (DatasetMatrix.py:508) *)
Definition put_Y (m : smat) (o : dmobj) : dmobj := DMObj (j_label o) (j_X o) (Some m) (j_rows o) (j_colsX o) (j_colsY o) (j_final o).
(** self.row_labels = (DatasetMatrix.py:511) *)
Definition put_rows (l : list text) (o : dmobj) : dmobj := DMObj (j_label o) (j_X o) (j_Y o) l (j_colsX o) (j_colsY o) (j_final o).
(** self.column_labels_X = (DatasetMatrix.py:514) *)
Definition put_colsX (l : list text) (o : dmobj) : dmobj := DMObj (j_label o) (j_X o) (j_Y o) (j_rows o) l (j_colsY o) (j_final o).
(** self.column_labels_Y = (DatasetMatrix.py:517) *)
Definition put_colsY (l : list text) (o : dmobj) : dmobj := DMObj (j_label o) (j_X o) (j_Y o) (j_rows o) (j_colsX o) l (j_final o).
(** DatasetMatrix.finalize (522-542): nothing to do if final; None has no eliminate_zeros *)
Definition dm_finalize (o : dmobj) : dmobj * res unit :=
  if j_final o then (o, Ok tt) else match as_dm o with Some d => (of_dm (finalize d), Ok tt) | None => (o, Err AttributeError) end.
(** read one file and assign what it holds; an exception leaves the earlier assignments (DatasetMatrix.py:507-517) *)
Definition read_into {A} (s : fs) (p : prog A) (put : A -> dmobj -> dmobj) (st : dmobj * res unit) : dmobj * res unit :=
  match st with
  | (o, Err e) => (o, Err e)
  | (o, Ok _) => match snd (exec s p) with Ok a => (put a o, Ok tt) | Err e => (o, Err e) end
  end.
(** DatasetMatrix.load (493-519), in place *)
Definition dm_load (s : fs) (folder : path) (o : dmobj) : dmobj * res unit :=
  let mp := folder ++ [j_label o] in
  let st := read_into s (load_matrix mp "X") put_X (o, Ok tt) in
  let st := read_into s (load_matrix mp "Y") put_Y st in
  let st := read_into s (load_labels (mp ++ ["row_labels.txt"])) put_rows st in
  let st := read_into s (load_labels (mp ++ ["column_labels_X.txt"])) put_colsX st in
  let st := read_into s (load_labels (mp ++ ["column_labels_Y.txt"])) put_colsY st in
  match st with (o', Ok _) => dm_finalize o' | (o', Err e) => (o', Err e) end.
(** DatasetMatrix.save (474-490) *)
Definition dm_save (o : dmobj) (folder : path) : prog unit :=
  if negb (j_final o) then Raise MatrixNotFinalized else
  match as_dm o with Some d => save_dm d folder | None => Raise AttributeError end.

(** the three attributes that refer to a DatasetMatrix [ModelBuildingExperimentalDataset.py:45-50] *)
Inductive which := Full | Train | Test.
(** the object: the DatasetMatrix objects of the program by address, and the attributes matrix, matrix_train, matrix_test,
    total_row_count, train_rows, test_rows (ModelBuildingExperimentalDataset.py:45-50, ExperimentalDataset.py:27-30) *)
Record exds := Exds { x_heap : list dmobj; x_full : option nat; x_train : option nat; x_test : option nat;
  x_total : nat; x_train_rows : option (list nat); x_test_rows : option (list nat) }.
(** a new object (ModelBuildingExperimentalDataset.py:45-50, ExperimentalDataset.py:27-30) *)
Definition new_exds (h : list dmobj) : exds := Exds h None None None 0 None None.
(** reading one of the attributes (ModelBuildingExperimentalDataset.py:171-176) *)
Definition ref (w : which) (x : exds) : option nat := match w with Full => x_full x | Train => x_train x | Test => x_test x end.
(** assigning a newly made DatasetMatrix to one of them (ModelBuildingExperimentalDataset.py:108, 112, 148-149, ExperimentalDataset.py:65, 122) *)
Definition assign (w : which) (o : dmobj) (x : exds) : exds :=
  let h := x_heap x ++ [o] in let a := Some (List.length (x_heap x)) in
  match w with
  | Full => Exds h a (x_train x) (x_test x) (x_total x) (x_train_rows x) (x_test_rows x)
  | Train => Exds h (x_full x) a (x_test x) (x_total x) (x_train_rows x) (x_test_rows x)
  | Test => Exds h (x_full x) (x_train x) a (x_total x) (x_train_rows x) (x_test_rows x)
  end.
(** an object is changed in place [DatasetMatrix.py:493-542] *)
Definition put_at (h : list dmobj) (a : nat) (o : dmobj) : list dmobj := firstn a h ++ o :: skipn (S a) h.
(** a method call on one of the attributes; None has no methods [ExperimentalDataset.py:91, 123] *)
Definition on_matrix (f : dmobj -> dmobj * res unit) (w : which) (x : exds) : exds * res unit :=
  match ref w x with
  | None => (x, Err AttributeError)
  | Some a => match nth_error (x_heap x) a with
              | None => (x, Err AttributeError)
              | Some o => let (o', r) := f o in
                  (Exds (put_at (x_heap x) a o') (x_full x) (x_train x) (x_test x) (x_total x) (x_train_rows x) (x_test_rows x), r)
              end
  end.
(** one statement after the other, up to the first exception [ModelBuildingExperimentalDataset.py:78-113] *)
Definition and_then (r : exds * res unit) (f : exds -> exds * res unit) : exds * res unit :=
  match r with (x, Ok _) => f x | (x, Err e) => (x, Err e) end.
(** finalize (ModelBuildingExperimentalDataset.py:78-81, ExperimentalDataset.py:83-91) *)
Definition xfinalize (x : exds) : exds * res unit :=
  and_then (on_matrix dm_finalize Full x) (fun x => and_then (on_matrix dm_finalize Train x) (fun x => on_matrix dm_finalize Test x)).
(** self.matrix...save(path); None has no save [ModelBuildingExperimentalDataset.py:99-100] *)
Definition save_ref (lp : lockable) (w : which) (x : exds) : prog unit :=
  match ref w x with
  | None => Raise AttributeError
  | Some a => match nth_error (x_heap x) a with Some o => dm_save o (lp_path lp) | None => Raise AttributeError end
  end.
(** save (ModelBuildingExperimentalDataset.py:84-102, ExperimentalDataset.py:94-108); the exception class named in line 102 is not imported *)
Definition xsave (lp : lockable) (x : exds) : prog unit :=
  (lp_ensure_folder lp ;;;
   locked <~ folder_is_locked lp "" ;;
   if locked : bool then Raise ExperimentalDatasetErr else save_ref lp Full x) ;;;
  lp_ensure_folder lp ;;;
  locked <~ folder_is_locked lp "" ;;
  if locked : bool then Raise NameErr else save_ref lp Train x ;;; save_ref lp Test x.
(** finalize_and_save (ExperimentalDataset.py:76-80) *)
Definition xfinalize_and_save (lp : lockable) (auto_lock : bool) (s : fs) (x : exds) : fs * exds * res unit :=
  match xfinalize x with
  | (y, Err e) => (s, y, Err e)
  | (y, Ok _) => let (t, r) := exec s (xsave lp y ;;; if auto_lock then lock_folder lp "" else Ret tt) in (t, y, r)
  end.
(** load one matrix, into a new object if there is none yet (ExperimentalDataset.py:121-123, ModelBuildingExperimentalDataset.py:107-113) *)
Definition load_ref (s : fs) (lp : lockable) (w : which) (label : string) (x : exds) : exds * res unit :=
  let x1 := match ref w x with None => assign w (new_dm label) x | Some _ => x end in
  on_matrix (dm_load s (lp_path lp)) w x1.
(** load (ModelBuildingExperimentalDataset.py:105-113, ExperimentalDataset.py:111-123) *)
Definition xload (s : fs) (lp : lockable) (x : exds) : exds * res unit :=
  and_then (load_ref s lp Full "dataset" x) (fun x =>
  and_then (load_ref s lp Train "dataset_train" x) (fun x => load_ref s lp Test "dataset_test" x)).
(** perform_random_dataset_split (ModelBuildingExperimentalDataset.py:116-149) after self.matrix was set to [d] *)
Definition xsplit (d : dmatrix) (training_subset_size : Q) (shuffled : list nat) (x : exds) : exds * res unit :=
  let train_rows_count := py_int (inject_Z (Z.of_nat (x_total x)) * training_subset_size) in
  let train_rows := sort_nat (slice_to shuffled train_rows_count) in
  let test_rows := sort_nat (slice_from shuffled train_rows_count) in
  let x1 := Exds (x_heap x) (x_full x) (x_train x) (x_test x) (x_total x) (Some train_rows) (Some test_rows) in
  match select_rows d (map Z.of_nat train_rows) "dataset_train" with
  | Err e => (x1, Err e)
  | Ok tr => let x2 := assign Train (of_dm tr) x1 in
      match select_rows d (map Z.of_nat test_rows) "dataset_test" with
      | Err e => (x2, Err e)
      | Ok te => (assign Test (of_dm te) x2, Ok tt)
      end
  end.
(** build (ModelBuildingExperimentalDataset.py:53-75, ExperimentalDataset.py:33-73): [source] is what create_dataset_matrix("dataset")
    returns or raises *)
Definition xbuild (lp : lockable) (do_save auto_lock : bool) (source : res dmatrix) (q : Q) (shuffled : list nat) (s : fs) (x : exds)
  : fs * exds * res unit :=
  match source with
  | Err e => (s, x, Err e)
  | Ok d =>
    let x1 := assign Full (of_dm d) x in
    let x2 := Exds (x_heap x1) (x_full x1) (x_train x1) (x_test x1) (sm_nrows (dm_X d)) (x_train_rows x1) (x_test_rows x1) in
    match xsplit d q shuffled x2 with
    | (y, Err e) => (s, y, Err e)
    | (y, Ok _) => if do_save then xfinalize_and_save lp auto_lock s y else (s, y, Ok tt)
    end
  end.
(** get_datasetmatrix (ModelBuildingExperimentalDataset.py:152-178): the object (its address) or None *)
Definition get_datasetmatrix (x : exds) (label : string) : res (option nat) :=
  if String.eqb label "full" then Ok (x_full x)
  else if String.eqb label "train" then Ok (x_train x)
  else if String.eqb label "test" then Ok (x_test x)
  else Err ValueError.

(** what a program does with the object, and what others do on the disk meanwhile [ModelBuildingExperimentalDataset.py:53-178] *)
Inductive xop := XBuild (do_save auto_lock : bool) (source : res dmatrix) (q : Q) (shuffled : list nat) | XLoad | XFinalize | XSave | XFinalizeAndSave (auto_lock : bool) | XDisk (t : fs).
(** one of them; exceptions are caught (ModelBuildingExperimentalDataset.py:53-178) *)
Definition xstep (lp : lockable) (w : fs * exds) (o : xop) : fs * exds :=
  let (s, x) := w in
  match o with
  | XBuild do_save auto_lock source q shuffled => fst (xbuild lp do_save auto_lock source q shuffled s x)
  | XLoad => (s, fst (xload s lp x))
  | XFinalize => (s, fst (xfinalize x))
  | XSave => (fst (exec s (xsave lp x)), x)
  | XFinalizeAndSave auto_lock => fst (xfinalize_and_save lp auto_lock s x)
  | XDisk t => (t, x)
  end.
(** a history (ModelBuildingExperimentalDataset.py:53-178) *)
Definition xrun (lp : lockable) (ops : list xop) (s : fs) (x : exds) : fs * exds := fold_left (xstep lp) ops (s, x).
