(** Model of mbtk/dataset/DatasetMatrix.py with object identity: several DatasetMatrix objects alive
    at once, each holding references to list objects (labels) and to matrix objects, which Python
    code can change in place.  Matrix_Model.v gives every dataset its own copy of everything; here
    whether two datasets share a list or a matrix is part of the state.
    Simplifications: those of Matrix_Model.v; metadata is left out; label texts are immutable in
    Python, hence values. *)
From Coq Require Import String.
From Verif Require Import Base Matrix_Model.

(** a reference to a list object or to a matrix object (DatasetMatrix.py:48-56) *)
Definition loc := nat.

(** the attributes of a DatasetMatrix, as references (DatasetMatrix.py:48-56) *)
Record hds := HDs { h_label : string; h_X : loc; h_Y : loc; h_rows : loc; h_lx : loc; h_ly : loc; h_final : bool }.

(** which matrix (DatasetMatrix.py:75-91) *)
Inductive side := SideX | SideY.

(** a Variable made by get_variable (DatasetMatrix.py:186-222, Variable.py:8-34): its name, the
    dataset and column its loader reads, and instances_list (None until loaded) *)
Record hvar := HVar { v_name : text; v_ds : nat; v_side : side; v_col : Z; v_cache : option (list Z) }.

(** all objects in play: list objects, matrix objects, datasets, variables; a reference is the
    position of the object.  (DatasetMatrix.py:48-56, 186-222) *)
Record world := World { w_lists : list (list text); w_mats : list smat; w_ds : list hds; w_vars : list hvar }.

(** *** what Python statements do to the objects *)
(** the object a reference points to (DatasetMatrix.py:48-56) *)
Definition get_list (w : world) (l : loc) : list text := nth l (w_lists w) [].
(** the matrix a reference points to (DatasetMatrix.py:48-56) *)
Definition get_mat (w : world) (l : loc) : smat := nth l (w_mats w) (SMat CSR 0 []).
(** change one element of a list (DatasetMatrix.py:278-280) *)
Fixpoint modify {A} (i : nat) (f : A -> A) (l : list A) : list A :=
  match l, i with
  | [], _ => []
  | x :: l', O => f x :: l'
  | x :: l', Datatypes.S j => x :: modify j f l'
  end.
(** rebind attributes of dataset i (DatasetMatrix.py:278-310, 401-457, 536-556) *)
Definition rebind (w : world) (i : nat) (f : hds -> hds) : world :=
  World (w_lists w) (w_mats w) (modify i f (w_ds w)) (w_vars w).
(** create a list object; its reference is returned (DatasetMatrix.py:309, 341-343, 379-381, 402, 421) *)
Definition new_list (w : world) (c : list text) : world * loc :=
  (World (w_lists w ++ [c]) (w_mats w) (w_ds w) (w_vars w), length (w_lists w)).
(** create a matrix object (DatasetMatrix.py:339-340, 377-378, 669-677, 539-540) *)
Definition new_mat (w : world) (m : smat) : world * loc :=
  (World (w_lists w) (w_mats w ++ [m]) (w_ds w) (w_vars w), length (w_mats w)).
(** replace the content of a list object: every holder of the reference sees it
    (DatasetMatrix.py:280, 439, 457) *)
Definition put_list (w : world) (l : loc) (c : list text) : world :=
  World (modify l (fun _ => c) (w_lists w)) (w_mats w) (w_ds w) (w_vars w).
(** replace the content of a matrix object (scipy: M[r, c] = v) (DatasetMatrix.py:48-56) *)
Definition put_mat (w : world) (l : loc) (m : smat) : world :=
  World (w_lists w) (modify l (fun _ => m) (w_mats w)) (w_ds w) (w_vars w).

(** self.X = <reference> and so on (DatasetMatrix.py:278-457) *)
Definition bind_X (l : loc) (h : hds) : hds := HDs (h_label h) l (h_Y h) (h_rows h) (h_lx h) (h_ly h) (h_final h).
(** self.Y = <reference> (DatasetMatrix.py:279, 307, 420, 456) *)
Definition bind_Y (l : loc) (h : hds) : hds := HDs (h_label h) (h_X h) l (h_rows h) (h_lx h) (h_ly h) (h_final h).
(** self.row_labels = <reference> (DatasetMatrix.py:310) *)
Definition bind_rows (l : loc) (h : hds) : hds := HDs (h_label h) (h_X h) (h_Y h) l (h_lx h) (h_ly h) (h_final h).
(** self.column_labels_X = <reference> (DatasetMatrix.py:402) *)
Definition bind_lx (l : loc) (h : hds) : hds := HDs (h_label h) (h_X h) (h_Y h) (h_rows h) l (h_ly h) (h_final h).
(** self.column_labels_Y = <reference> (DatasetMatrix.py:421) *)
Definition bind_ly (l : loc) (h : hds) : hds := HDs (h_label h) (h_X h) (h_Y h) (h_rows h) (h_lx h) l (h_final h).
(** self.final = b (DatasetMatrix.py:542, 556) *)
Definition bind_final (b : bool) (h : hds) : hds := HDs (h_label h) (h_X h) (h_Y h) (h_rows h) (h_lx h) (h_ly h) b.

(** delete_rows_cols (622-679): the matrix at [l] itself when there is nothing to delete, otherwise
    a new matrix object; the tocsr() that follows each call returns its argument, which is CSR *)
Definition h_delete_rows_cols (w : world) (l : loc) (rows cols : list Z) : res (world * loc) :=
  m <- delete_rows_cols (get_mat w l) rows cols ;;
  match rows, cols with
  | [], [] => Ok (w, l)
  | _, _ => Ok (new_mat w m)
  end.

(** a statement that may raise; on an exception the objects stay as they are
    (DatasetMatrix.py:265-457) *)
Definition step_res {A} (w : world) (r : res A) (k : A -> world * res unit) : world * res unit :=
  match r with Ok a => k a | Err e => (w, Err e) end.

(** delete_row (265-280); `del self.row_labels[r]` works on the list object *)
Definition h_delete_row (w : world) (i : nat) (h : hds) (r : Z) : world * res unit :=
  if h_final h then (w, Err MatrixFinalized) else
  step_res w (h_delete_rows_cols w (h_X h) [r] []) (fun '(w1, x) =>
  let w2 := rebind w1 i (bind_X x) in
  step_res w2 (h_delete_rows_cols w2 (h_Y h) [r] []) (fun '(w3, y) =>
  let w4 := rebind w3 i (bind_Y y) in
  step_res w4 (py_del (get_list w4 (h_rows h)) r) (fun c =>
  (put_list w4 (h_rows h) c, Ok tt)))).

(** keep_rows (283-310): the labels become a new list object *)
Definition h_keep_rows (w : world) (i : nat) (h : hds) (rows_to_keep : list Z) : world * res unit :=
  if h_final h then (w, Err MatrixFinalized) else
  match rows_to_keep with
  | [] => (w, Err ValueError)
  | _ =>
    let all_rows := map Z.of_nat (seq 0 (sm_nrows (get_mat w (h_X h)))) in
    let rows_to_delete := filter (fun r => negb (mem_Z r rows_to_keep)) all_rows in
    step_res w (h_delete_rows_cols w (h_X h) rows_to_delete []) (fun '(w1, x) =>
    let w2 := rebind w1 i (bind_X x) in
    step_res w2 (h_delete_rows_cols w2 (h_Y h) rows_to_delete []) (fun '(w3, y) =>
    let w4 := rebind w3 i (bind_Y y) in
    step_res w4 (py_gather (get_list w4 (h_rows h)) rows_to_keep) (fun c =>
    let '(w5, l) := new_list w4 c in
    (rebind w5 i (bind_rows l), Ok tt))))
  end.

(** delete_columns_X (386-402): the labels become a new list object *)
Definition h_delete_columns_X (w : world) (i : nat) (h : hds) (columns_to_delete : list Z) : world * res unit :=
  if h_final h then (w, Err MatrixFinalized) else
  let columns := sort_Z columns_to_delete in
  step_res w (h_delete_rows_cols w (h_X h) [] columns) (fun '(w1, x) =>
  let w2 := rebind w1 i (bind_X x) in
  let '(w3, l) := new_list w2 (labels_not_in (get_list w2 (h_lx h)) columns) in
  (rebind w3 i (bind_lx l), Ok tt)).
(** delete_columns_Y (405-421) *)
Definition h_delete_columns_Y (w : world) (i : nat) (h : hds) (columns_to_delete : list Z) : world * res unit :=
  if h_final h then (w, Err MatrixFinalized) else
  let columns := sort_Z columns_to_delete in
  step_res w (h_delete_rows_cols w (h_Y h) [] columns) (fun '(w1, y) =>
  let w2 := rebind w1 i (bind_Y y) in
  let '(w3, l) := new_list w2 (labels_not_in (get_list w2 (h_ly h)) columns) in
  (rebind w3 i (bind_ly l), Ok tt)).
(** delete_column_X (424-439); `del self.column_labels_X[c]` works on the list object *)
Definition h_delete_column_X (w : world) (i : nat) (h : hds) (c : Z) : world * res unit :=
  if h_final h then (w, Err MatrixFinalized) else
  step_res w (h_delete_rows_cols w (h_X h) [] [c]) (fun '(w1, x) =>
  let w2 := rebind w1 i (bind_X x) in
  step_res w2 (py_del (get_list w2 (h_lx h)) c) (fun l =>
  (put_list w2 (h_lx h) l, Ok tt))).
(** delete_column_Y (442-457) *)
Definition h_delete_column_Y (w : world) (i : nat) (h : hds) (c : Z) : world * res unit :=
  if h_final h then (w, Err MatrixFinalized) else
  step_res w (h_delete_rows_cols w (h_Y h) [] [c]) (fun '(w1, y) =>
  let w2 := rebind w1 i (bind_Y y) in
  step_res w2 (py_del (get_list w2 (h_ly h)) c) (fun l =>
  (put_list w2 (h_ly h) l, Ok tt))).

(** m.tocsc(), m.tocsr(): the matrix itself when it already has the format, otherwise a new one
    (DatasetMatrix.py:539-540, 553-554) *)
Definition h_to_format (f : format) (w : world) (l : loc) : world * loc :=
  match f, sm_format (get_mat w l) with
  | CSR, CSR => (w, l)
  | CSC, CSC => (w, l)
  | _, _ => new_mat w (to_format f (get_mat w l))
  end.
(** finalize (522-542); eliminate_zeros() and check_format() do not change the entries *)
Definition h_finalize (w : world) (i : nat) (h : hds) : world :=
  if h_final h then w else
  let '(w1, x) := h_to_format CSC w (h_X h) in
  let w2 := rebind w1 i (bind_X x) in
  let '(w3, y) := h_to_format CSC w2 (h_Y h) in
  rebind (rebind w3 i (bind_Y y)) i (bind_final true).
(** unfinalize (545-556) *)
Definition h_unfinalize (w : world) (i : nat) (h : hds) : world :=
  let '(w1, x) := h_to_format CSR w (h_X h) in
  let w2 := rebind w1 i (bind_X x) in
  let '(w3, y) := h_to_format CSR w2 (h_Y h) in
  rebind (rebind w3 i (bind_Y y)) i (bind_final false).

(** select_rows (313-345): a new dataset; the row labels are a comprehension, the column labels are
    copied with list.copy(), the matrices come from fancy indexing - all new objects *)
Definition h_select_rows (w : world) (h : hds) (rows_to_keep : list Z) (new_label : string) : world * res unit :=
  match rows_to_keep with
  | [] => (w, Err ValueError)
  | _ =>
    let rows := sort_Z rows_to_keep in
    let label := if String.eqb new_label "" then h_label h else new_label in
    step_res w (take_rows (get_mat w (h_X h)) rows) (fun mx =>
    let '(w1, x) := new_mat w mx in
    step_res w1 (take_rows (get_mat w1 (h_Y h)) rows) (fun my =>
    let '(w2, y) := new_mat w1 my in
    step_res w2 (py_gather (get_list w2 (h_rows h)) rows) (fun c =>
    let '(w3, rl) := new_list w2 c in
    let '(w4, lx) := new_list w3 (get_list w3 (h_lx h)) in
    let '(w5, ly) := new_list w4 (get_list w4 (h_ly h)) in
    (World (w_lists w5) (w_mats w5) (w_ds w5 ++ [HDs label x y rl lx ly false]) (w_vars w5), Ok tt))))
  end.
(** select_columns_X (348-383): Y, the row labels and the labels of Y are copied *)
Definition h_select_columns_X (w : world) (h : hds) (columns_to_keep : list Z) (new_label : string) : world * res unit :=
  match columns_to_keep with
  | [] => (w, Err ValueError)
  | _ =>
    let columns := sort_Z columns_to_keep in
    let label := if String.eqb new_label "" then h_label h else new_label in
    step_res w (take_cols (get_mat w (h_X h)) columns) (fun mx =>
    let '(w1, x) := new_mat w mx in
    let '(w2, y) := new_mat w1 (get_mat w1 (h_Y h)) in
    let '(w3, rl) := new_list w2 (get_list w2 (h_rows h)) in
    step_res w3 (py_gather (get_list w3 (h_lx h)) columns) (fun c =>
    let '(w4, lx) := new_list w3 c in
    let '(w5, ly) := new_list w4 (get_list w4 (h_ly h)) in
    (World (w_lists w5) (w_mats w5) (w_ds w5 ++ [HDs label x y rl lx ly false]) (w_vars w5), Ok tt)))
  end.

(** a method call on dataset i (DatasetMatrix.py:265-457, 522-556) *)
Definition h_call (w : world) (i : nat) (h : hds) (o : op) : world * res unit :=
  match o with
  | DeleteRow r => h_delete_row w i h r
  | KeepRows rows => h_keep_rows w i h rows
  | SelectRows rows label => h_select_rows w h rows label
  | SelectColumnsX cols label => h_select_columns_X w h cols label
  | DeleteColumnsX cols => h_delete_columns_X w i h cols
  | DeleteColumnsY cols => h_delete_columns_Y w i h cols
  | DeleteColumnX c => h_delete_column_X w i h c
  | DeleteColumnY c => h_delete_column_Y w i h c
  | Finalize => (h_finalize w i h, Ok tt)
  | Unfinalize => (h_unfinalize w i h, Ok tt)
  end.

(** *** writes by the caller through the public attributes *)
(** M[r, c] = v and l[k] = t (the attributes of DatasetMatrix.py:48-56 are public) *)
Definition set_entry (m : smat) (r c : Z) (v : Z) : res smat :=
  k <- py_index (sm_nrows m) r ;; j <- py_index (sm_ncols m) c ;;
  Ok (SMat (sm_format m) (sm_ncols m) (modify k (modify j (fun _ => v)) (sm_rows m))).
(** l[k] = t (DatasetMatrix.py:48-56) *)
Definition set_label (l : list text) (k : Z) (t : text) : res (list text) :=
  p <- py_index (length l) k ;; Ok (modify p (fun _ => t) l).

(** which label list (DatasetMatrix.py:48-56, 140-155) *)
Inductive labels := RowLabels | LabelsX | LabelsY.
(** the reference held in an attribute (DatasetMatrix.py:48-56, 140-155) *)
Definition h_labels (which : labels) (h : hds) : loc :=
  match which with RowLabels => h_rows h | LabelsX => h_lx h | LabelsY => h_ly h end.
(** get_matrix (75-91) *)
Definition h_matrix (s : side) (h : hds) : loc := match s with SideX => h_X h | SideY => h_Y h end.
(** the labels that get_variable looks up (DatasetMatrix.py:204-213) *)
Definition side_labels (s : side) : labels := match s with SideX => LabelsX | SideY => LabelsY end.

(** what a program using the library can do
    (DatasetMatrix.py:48-56, 186-222, 265-457, 522-556; Variable.py:27-34) *)
Inductive action :=
| Call (i : nat) (o : op)
| WriteEntry (i : nat) (s : side) (r c : Z) (v : Z)
| WriteLabel (i : nat) (which : labels) (k : Z) (t : text)
| GetVariable (i : nat) (s : side) (c : Z)
| Instances (v : nat).

(** Variable.instances (27-34): the loader runs when instances_list is None; when it raises,
    instances_list stays None *)
Definition h_instances (w : world) (k : nat) (x : hvar) : world * res (list Z) :=
  match v_cache x with
  | Some l => (w, Ok l)
  | None =>
    match nth_error (w_ds w) (v_ds x) with
    | None => (w, Err AttributeError)
    | Some h =>
      match get_column (get_mat w (h_matrix (v_side x) h)) (v_col x) with
      | Err e => (w, Err e)
      | Ok l => (World (w_lists w) (w_mats w) (w_ds w)
                   (modify k (fun x => HVar (v_name x) (v_ds x) (v_side x) (v_col x) (Some l)) (w_vars w)), Ok l)
      end
    end
  end.

(** one action; an index that names no object changes nothing
    (DatasetMatrix.py:48-56, 186-222, 265-457, 522-556) *)
Definition h_step (w : world) (a : action) : world * res unit :=
  match a with
  | Call i o =>
    match nth_error (w_ds w) i with None => (w, Err AttributeError) | Some h => h_call w i h o end
  | WriteEntry i s r c v =>
    match nth_error (w_ds w) i with None => (w, Err AttributeError) | Some h =>
    step_res w (set_entry (get_mat w (h_matrix s h)) r c v) (fun m => (put_mat w (h_matrix s h) m, Ok tt)) end
  | WriteLabel i which k t =>
    match nth_error (w_ds w) i with None => (w, Err AttributeError) | Some h =>
    step_res w (set_label (get_list w (h_labels which h)) k t) (fun l => (put_list w (h_labels which h) l, Ok tt)) end
  | GetVariable i s c =>
    match nth_error (w_ds w) i with None => (w, Err AttributeError) | Some h =>
    step_res w (py_get (get_list w (h_labels (side_labels s) h)) c) (fun name =>
    (World (w_lists w) (w_mats w) (w_ds w) (w_vars w ++ [HVar name i s c None]), Ok tt)) end
  | Instances k =>
    match nth_error (w_vars w) k with None => (w, Err AttributeError) | Some x =>
    match h_instances w k x with (w', Ok _) => (w', Ok tt) | (w', Err e) => (w', Err e) end end
  end.
(** a program: any sequence of actions; an exception is caught and the program goes on
    (DatasetMatrix.py:48-56, 186-222, 265-457, 522-556) *)
Definition h_run (w : world) (acts : list action) : world := fold_left (fun w a => fst (h_step w a)) acts w.
