(** Model of ContingencyTable.group_keys_by_columns, on the tables of CTable_Model.v. *)
From Verif Require Import Base CTable_Model.
Open Scope nat_scope.

(** key[i]: TypeError unless the key is a tuple [ContingencyTable.py:188-189] *)
Definition key_item (k : ckey) (i : nat) : res Z :=
  match k with Tup l => of_option IndexError (nth_error l i) | One _ => Err TypeError end.
(** self.column_index[c] [ContingencyTable.py:182-183] *)
Definition index_of_column (t : ctable) (c : nat) : res nat := of_option KeyError (assoc Nat.eqb c (column_index t)).
(** grouped_keys[subkey][complement_subkey] = key, with a new dictionary when there is none
    [ContingencyTable.py:190-193] *)
Definition put_key (g : list (list Z * list (list Z * ckey))) (sub comp : list Z) (k : ckey) :=
  match assoc zs_eqb sub g with
  | Some d => assoc_set zs_eqb sub (assoc_set zs_eqb comp k d) g
  | None => assoc_set zs_eqb sub [(comp, k)] g
  end.
(** group_keys_by_columns [ContingencyTable.py:181-195] *)
Definition group_keys_by_columns (t : ctable) (cs : list nat) : res (list (list Z * list (list Z * ckey))) :=
  column_indices <- mapM (index_of_column t) cs ;;
  complement_column_indices <- mapM (index_of_column t) (filter (fun c => negb (mem c cs)) (columns t)) ;;
  foldM (fun g kn =>
    subkey <- mapM (key_item (fst kn)) column_indices ;;
    complement_subkey <- mapM (key_item (fst kn)) complement_column_indices ;;
    Ok (put_key g subkey complement_subkey (fst kn))) (ct t) [].
