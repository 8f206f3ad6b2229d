(** What flattening a nested key means. *)
From Verif Require Import Base Key_Model.
Open Scope Z_scope.

(** the leaves, left to right *)
Fixpoint leaves (p : pyobj) : list Z :=
  match p with
  | PInt z => [z]
  | PTup l => (fix go l := match l with [] => [] | x :: l' => leaves x ++ go l' end) l
  end.
Definition leaves_list (l : list pyobj) : list Z := flat_map leaves l.

(** the key of a tuple of values *)
Definition as_key (l : list Z) : pyobj := match l with [x] => PInt x | _ => PTup (map PInt l) end.
