(** Vocabulary for the properties of several datasets alive at once (C63) and of the variables taken
    from them (C64). *)
From Coq Require Import String.
From Verif Require Import Base Matrix_Model Heap_Model.

(** what a caller sees when looking at dataset [h]: its label, the entries of X and Y, the labels,
    the final flag *)
Definition content (w : world) (h : hds) : dmatrix :=
  DMat (h_label h) (get_mat w (h_X h)) (get_mat w (h_Y h))
       (get_list w (h_rows h)) (get_list w (h_lx h)) (get_list w (h_ly h)) (h_final h).
(** what is seen of the dataset with number [i] (None: there is no such dataset) *)
Definition observe (w : world) (i : nat) : option dmatrix := option_map (content w) (nth_error (w_ds w) i).

(** no list object and no matrix object is held by two attributes, of the same or of different
    datasets, and every reference points to an object *)
Definition separate (w : world) : Prop :=
  (forall i h a, nth_error (w_ds w) i = Some h -> h_labels a h < length (w_lists w)) /\
  (forall i h s, nth_error (w_ds w) i = Some h -> h_matrix s h < length (w_mats w)) /\
  (forall i j h h' a b, nth_error (w_ds w) i = Some h -> nth_error (w_ds w) j = Some h' ->
     h_labels a h = h_labels b h' -> i = j /\ a = b) /\
  (forall i j h h' s t, nth_error (w_ds w) i = Some h -> nth_error (w_ds w) j = Some h' ->
     h_matrix s h = h_matrix t h' -> i = j /\ s = t).

(** calls that make a new dataset instead of changing the one they are called on *)
Definition selects (o : op) : option (dmatrix -> res dmatrix) :=
  match o with
  | SelectRows rows label => Some (fun d => select_rows d rows label)
  | SelectColumnsX cols label => Some (fun d => select_columns_X d cols label)
  | _ => None
  end.

(** the action is meant to change dataset [i]: a call that is not a selection, or a write *)
Definition changes (a : action) (i : nat) : Prop :=
  match a with
  | Call j o => j = i /\ selects o = None
  | WriteEntry j _ _ _ _ | WriteLabel j _ _ _ => j = i
  | GetVariable _ _ _ | Instances _ => False
  end.

(** the datasets of a program as values that nobody shares *)
Definition values (w : world) : list dmatrix := map (content w) (w_ds w).
(** replace the element at a position *)
Fixpoint replace {A} (i : nat) (x : A) (l : list A) : list A :=
  match l, i with [], _ => [] | _ :: l', O => x :: l' | y :: l', Datatypes.S j => y :: replace j x l' end.
(** dense content written at one place *)
Definition write_X (d : dmatrix) r c v : res dmatrix := m <- set_entry (dm_X d) r c v ;; Ok (set_X d m).
Definition write_Y (d : dmatrix) r c v : res dmatrix := m <- set_entry (dm_Y d) r c v ;; Ok (set_Y d m).
Definition write_label (d : dmatrix) (which : labels) k t : res dmatrix :=
  match which with
  | RowLabels => l <- set_label (dm_row_labels d) k t ;; Ok (set_row_labels d l)
  | LabelsX => l <- set_label (dm_labels_X d) k t ;; Ok (set_labels_X d l)
  | LabelsY => l <- set_label (dm_labels_Y d) k t ;; Ok (set_labels_Y d l)
  end.
(** one action on datasets that are plain values: a change replaces the addressed dataset only, a
    selection adds a dataset at the end *)
Definition value_step (ds : list dmatrix) (a : action) : list dmatrix :=
  match a with
  | Call i o =>
    match nth_error ds i with
    | None => ds
    | Some d => match selects o with
                | Some sel => match sel d with Ok d' => ds ++ [d'] | Err _ => ds end
                | None => replace i (fst (do_op d o)) ds
                end
    end
  | WriteEntry i s r c v =>
    match nth_error ds i with
    | None => ds
    | Some d => match match s with SideX => write_X d r c v | SideY => write_Y d r c v end with
                | Ok d' => replace i d' ds | Err _ => ds end
    end
  | WriteLabel i which k t =>
    match nth_error ds i with
    | None => ds
    | Some d => match write_label d which k t with Ok d' => replace i d' ds | Err _ => ds end
    end
  | GetVariable _ _ _ | Instances _ => ds
  end.
Definition value_run (ds : list dmatrix) (acts : list action) : list dmatrix := fold_left value_step acts ds.

(** a program that starts with one dataset, whose attributes are newly made objects *)
Definition one_dataset (d : dmatrix) : world :=
  World [dm_row_labels d; dm_labels_X d; dm_labels_Y d] [dm_X d; dm_Y d]
        [HDs (dm_label d) 0 1 0 1 2 (dm_final d)] [].

(** what variable number [k] answers when asked for its name and for its instances *)
Definition name_now (w : world) (k : nat) : option text := option_map v_name (nth_error (w_vars w) k).
Definition instances_now (w : world) (k : nat) : res (list Z) :=
  match nth_error (w_vars w) k with Some x => snd (h_instances w k x) | None => Err AttributeError end.
Definition matrix_of (s : side) (d : dmatrix) : smat := match s with SideX => dm_X d | SideY => dm_Y d end.
Definition labels_of (s : side) (d : dmatrix) : list text := match s with SideX => dm_labels_X d | SideY => dm_labels_Y d end.
(** the entries of one column *)
Definition column_of (m : smat) (c : nat) : list Z := map (fun row => nth c row 0%Z) (sm_rows m).
