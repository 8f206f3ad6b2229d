(** Independent vocabulary for the dataset-matrix properties: what it means for a dataset to show
    given rows and columns of an original dataset, and what each operation is supposed to do. *)
From Coq Require Import String.
From Verif Require Import Base Matrix_Model.

(** the entry in row r, column c, and the label at a position *)
Definition entry (m : smat) (r c : nat) : Z := nth c (nth r (sm_rows m) []) 0%Z.
Definition label_at (l : list text) (i : nat) : text := nth i l [].

(** X and Y have as many rows as there are row labels, and as many columns as column labels, and
    are rectangular *)
Definition rectangular (m : smat) (nr nc : nat) : Prop :=
  length (sm_rows m) = nr /\ sm_ncols m = nc /\ Forall (fun row => length row = nc) (sm_rows m).
Definition aligned (d : dmatrix) : Prop :=
  rectangular (dm_X d) (length (dm_row_labels d)) (length (dm_labels_X d)) /\
  rectangular (dm_Y d) (length (dm_row_labels d)) (length (dm_labels_Y d)).

(** which rows and columns of an original dataset are shown, and in which order *)
Record origin := Origin { o_rows : list nat; o_colsX : list nat; o_colsY : list nat }.
Definition everything (d : dmatrix) : origin :=
  Origin (seq 0 (length (dm_row_labels d))) (seq 0 (length (dm_labels_X d))) (seq 0 (length (dm_labels_Y d))).

(** [m] consists of the entries of [m0] in the given rows and columns *)
Definition shows (m0 m : smat) (rows cols : list nat) : Prop :=
  sm_ncols m = length cols /\ sm_rows m = map (fun r => map (fun c => entry m0 r c) cols) rows.
(** [d] shows the given rows and columns of [d0], and every label of [d] is the label that the same
    row or column has in [d0] *)
Definition view_of (d0 d : dmatrix) (o : origin) : Prop :=
  shows (dm_X d0) (dm_X d) (o_rows o) (o_colsX o) /\
  shows (dm_Y d0) (dm_Y d) (o_rows o) (o_colsY o) /\
  dm_row_labels d = map (label_at (dm_row_labels d0)) (o_rows o) /\
  dm_labels_X d = map (label_at (dm_labels_X d0)) (o_colsX o) /\
  dm_labels_Y d = map (label_at (dm_labels_Y d0)) (o_colsY o) /\
  Forall (fun r => r < length (dm_row_labels d0)) (o_rows o) /\
  Forall (fun c => c < length (dm_labels_X d0)) (o_colsX o) /\
  Forall (fun c => c < length (dm_labels_Y d0)) (o_colsY o).

(** the integer [z], used as an index of a sequence of length [n], means position [i] *)
Definition means (n : nat) (z : Z) (i : nat) : Prop :=
  (i < n)%nat /\ (z = Z.of_nat i \/ z = (Z.of_nat i - Z.of_nat n)%Z).
(** [l'] lists the elements of [l] that the indices [zs] mean, in that order *)
Definition picked {A} (l : list A) (zs : list Z) (l' : list A) : Prop :=
  Forall2 (fun z x => exists i, means (length l) z i /\ nth_error l i = Some x) zs l'.
(** [l'] is [l] without the element that the index [z] means *)
Definition without {A} (l : list A) (z : Z) (l' : list A) : Prop :=
  exists a x b, l = a ++ x :: b /\ l' = a ++ b /\ means (length l) z (length a).
(** [l'] is [l] without the elements at the positions listed in [zs], in the old order *)
Definition without_all {A} (l : list A) (zs : list Z) (l' : list A) : Prop :=
  Forall2 (fun i x => nth_error l i = Some x)
          (filter (fun i => negb (existsb (Z.eqb (Z.of_nat i)) zs)) (seq 0 (length l))) l'.

(** what an operation that returns normally does to the rows and columns shown *)
Definition effect (o : op) (p p' : origin) : Prop :=
  match o with
  | DeleteRow r => without (o_rows p) r (o_rows p') /\ o_colsX p' = o_colsX p /\ o_colsY p' = o_colsY p
  | KeepRows zs => picked (o_rows p) zs (o_rows p') /\ o_colsX p' = o_colsX p /\ o_colsY p' = o_colsY p
  | SelectRows zs _ => (exists zs', Permutation zs zs' /\ Sorted Z.le zs' /\ picked (o_rows p) zs' (o_rows p')) /\
                       o_colsX p' = o_colsX p /\ o_colsY p' = o_colsY p
  | SelectColumnsX zs _ => (exists zs', Permutation zs zs' /\ Sorted Z.le zs' /\ picked (o_colsX p) zs' (o_colsX p')) /\
                           o_rows p' = o_rows p /\ o_colsY p' = o_colsY p
  | DeleteColumnsX zs => without_all (o_colsX p) zs (o_colsX p') /\ o_rows p' = o_rows p /\ o_colsY p' = o_colsY p
  | DeleteColumnsY zs => without_all (o_colsY p) zs (o_colsY p') /\ o_rows p' = o_rows p /\ o_colsX p' = o_colsX p
  | DeleteColumnX c => without (o_colsX p) c (o_colsX p') /\ o_rows p' = o_rows p /\ o_colsY p' = o_colsY p
  | DeleteColumnY c => without (o_colsY p) c (o_colsY p') /\ o_rows p' = o_rows p /\ o_colsX p' = o_colsX p
  | Finalize => p' = p
  | Unfinalize => p' = p
  end.

(** the arguments for which labels and data are treated alike: keep_rows wants existing rows in
    increasing order, each once; delete_columns_X and delete_columns_Y want no negative index *)
Definition proper_arguments (p : origin) (o : op) : Prop :=
  match o with
  | KeepRows zs => Sorted Z.lt zs /\ Forall (fun z => (0 <= z < Z.of_nat (length (o_rows p)))%Z) zs
  | DeleteColumnsX zs | DeleteColumnsY zs => Forall (fun z => (0 <= z)%Z) zs
  | _ => True
  end.
