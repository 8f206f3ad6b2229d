(** What equality of datasets, values per column and lookup by label are supposed to mean. *)
From Coq Require Import String.
From Verif Require Import Base Matrix_Model Matrix_Spec AD_Model.
Open Scope nat_scope.

(** the same table: the same number of rows and columns, and the same entries *)
Definition same_table (m1 m2 : smat) (nr nc : nat) : Prop :=
  forall r c, r < nr -> c < nc -> entry m1 r c = entry m2 r c.
(** the same labelled data; the name of the dataset, the storage format and whether it is final do not matter *)
Definition same_data (d e : dmatrix) : Prop :=
  dm_row_labels d = dm_row_labels e /\ dm_labels_X d = dm_labels_X e /\ dm_labels_Y d = dm_labels_Y e /\
  same_table (dm_X d) (dm_X e) (length (dm_row_labels d)) (length (dm_labels_X d)) /\
  same_table (dm_Y d) (dm_Y e) (length (dm_row_labels d)) (length (dm_labels_Y d)).
(** the first position of a label *)
Definition first_position (l : text) (labels : list text) (c : nat) : Prop :=
  nth_error labels c = Some l /\ forall c', c' < c -> nth_error labels c' <> Some l.
(** the number of occurrences does not matter: [vs] lists exactly the values that occur, in
    increasing order, each once *)
Definition distinct_values (column vs : list Z) : Prop :=
  StronglySorted Z.lt vs /\ forall x, In x vs <-> In x column.
(** side of a dataset: the matrix with its labels *)
Definition side (ml : string) (d : dmatrix) : option (smat * list text) :=
  if String.eqb ml "X" then Some (dm_X d, dm_labels_X d) else if String.eqb ml "Y" then Some (dm_Y d, dm_labels_Y d) else None.
(** the data of an AD-tree made from X with the values of get_values_per_column('X') *)
Definition tree_data (d : dmatrix) (values : list (list Z)) (leaf_list_threshold : Z) : AD_Model.dataset :=
  {| AD_Model.rows := sm_rows (dm_X d); AD_Model.ncols := sm_ncols (dm_X d);
     AD_Model.colvals := fun c => nth_error values c; AD_Model.threshold := leaf_list_threshold |}.
