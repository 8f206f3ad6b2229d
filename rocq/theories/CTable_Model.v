(** Model of mbtk/structures/ContingencyTable.py.
    Simplifications: column identifiers are naturals, values and counts are integers; __str__ and the
    printing in set_column_order are left out. *)
From Verif Require Import Base.
Open Scope nat_scope.

(** keys of the dictionary: tuples, or single values (after remove_leftmost_column) [ContingencyTable.py:52-61, 90-94] *)
Inductive ckey := Tup (l : list Z) | One (z : Z).
(** == of two tuples (dictionary keys of ContingencyTable.py:7) *)
Fixpoint zs_eqb (a b : list Z) : bool :=
  match a, b with [], [] => true | x :: a', y :: b' => (x =? y)%Z && zs_eqb a' b' | _, _ => false end.
(** == of two keys (dictionary keys of ContingencyTable.py:7) *)
Definition ckey_eqb (a b : ckey) : bool :=
  match a, b with Tup x, Tup y => zs_eqb x y | One x, One y => (x =? y)%Z | _, _ => false end.

(** __init__ (6-9) *)
Record ctable := CTable { ct : list (ckey * Z); columns : list nat; column_index : list (nat * nat) }.
(** __init__ (ContingencyTable.py:6-9) *)
Definition new_table : ctable := CTable [] [] [].
(** self.ct = d (ContingencyTable.py:7) *)
Definition set_ct (t : ctable) d := CTable d (columns t) (column_index t).
(** self.columns = c (ContingencyTable.py:8) *)
Definition set_cols (t : ctable) c := CTable (ct t) c (column_index t).

(** update_columns (80-87) *)
Definition update_columns (sortcolumns : bool) (t : ctable) : ctable :=
  let cs := if sortcolumns then sort_nat (columns t) else columns t in
  CTable (ct t) (columns t) (fold_left (fun d ic => assoc_set Nat.eqb (snd ic) (fst ic) d) (combine (seq 0 (length cs)) cs) []).
(** get, __getitem__ (44-45, 90-94) *)
Definition get (t : ctable) (k : ckey) : Z := match assoc ckey_eqb k (ct t) with Some n => n | None => 0%Z end.
(** duplicate (31-36) *)
Definition duplicate (t : ctable) : ctable := update_columns true (CTable (ct t) (columns t) []).
(** set_columns (156-158) *)
Definition set_columns (t : ctable) (cs : list nat) : ctable := update_columns true (set_cols t cs).

(** a method: the object afterwards, and how it ended [ContingencyTable.py:47-178] *)
Definition outcome := (ctable * res unit)%type.
(** the loops that rebuild the dictionary: new_ct[f(key)] = count ... [ContingencyTable.py:66-75, 98-102] *)
Definition rekey (f : ckey -> res ckey) (d : list (ckey * Z)) : res (list (ckey * Z)) :=
  foldM (fun new kn => k' <- f (fst kn) ;; Ok (assoc_set ckey_eqb k' (snd kn) new)) d [].
(** ... and with += [ContingencyTable.py:117-128, 143-153] *)
Definition rekey_sum (f : ckey -> res ckey) (d : list (ckey * Z)) : res (list (ckey * Z)) :=
  foldM (fun new kn => k' <- f (fst kn) ;;
                       Ok (assoc_set ckey_eqb k' (match assoc ckey_eqb k' new with Some n => n + snd kn | None => snd kn end)%Z new)) d [].
(** slicing, concatenation and indexing of a key: TypeError unless it is a tuple [ContingencyTable.py:97-153] *)
Definition on_tuple (f : list Z -> list Z) (k : ckey) : res ckey := match k with Tup l => Ok (Tup (f l)) | One _ => Err TypeError end.
(** finish a method: `self.update_columns(); self.ct = new_ct` after self.columns was changed [ContingencyTable.py:97-153] *)
Definition finish (sortcolumns : bool) (t : ctable) (r : res (list (ckey * Z))) : outcome :=
  match r with Ok d => (set_ct (update_columns sortcolumns t) d, Ok tt) | Err e => (t, Err e) end.

(** drop position i [ContingencyTable.py:117-128] *)
Definition drop_at {A} (i : nat) (l : list A) : list A := firstn i l ++ skipn (S i) l.
(** marginalize_column (117-128) *)
Definition marginalize_column (t : ctable) (column : nat) : outcome :=
  match assoc Nat.eqb column (column_index t) with
  | None => (t, Err KeyError)
  | Some i =>
    if i <? length (columns t) then
      finish true (set_cols t (drop_at i (columns t))) (rekey_sum (on_tuple (drop_at i)) (ct t))
    else (t, Err IndexError)
  end.
(** marginalize_last_column (143-153) *)
Definition marginalize_last_column (t : ctable) : outcome :=
  match columns t with
  | [] => (t, Err IndexError)
  | _ => finish true (set_cols t (removelast (columns t))) (rekey_sum (on_tuple (@removelast Z)) (ct t))
  end.
(** prepend_column (97-104), append_column (107-114) *)
Definition prepend_column (t : ctable) (column : nat) (value : Z) : outcome :=
  finish true (set_cols t (column :: columns t)) (rekey (on_tuple (cons value)) (ct t)).
(** append_column (ContingencyTable.py:107-114) *)
Definition append_column (t : ctable) (column : nat) (value : Z) : outcome :=
  finish true (set_cols t (columns t ++ [column])) (rekey (on_tuple (fun l => l ++ [value])) (ct t)).
(** l[:p] + [x] + l[p:], and deque.insert(p, x), for any integer p [ContingencyTable.py:131-140] *)
Definition insert_at {A} (p : Z) (x : A) (l : list A) : list A :=
  let n := Z.of_nat (length l) in
  let i := Z.to_nat (Z.min n (Z.max 0 (if (p <? 0)%Z then p + n else p))) in
  firstn i l ++ x :: skipn i l.
(** insert_column (131-140): the keys are rebuilt before the columns are changed *)
Definition insert_column (t : ctable) (column : nat) (value : Z) (position : Z) : outcome :=
  let p := if (position <? 0)%Z then (Z.of_nat (length (columns t)) + position)%Z else position in
  match rekey (on_tuple (insert_at p value)) (ct t) with
  | Ok d => (set_ct (update_columns true (set_cols t (insert_at p column (columns t)))) d, Ok tt)
  | Err e => (t, Err e)
  end.
(** remove_leftmost_column (52-61), finalize (47-49) *)
Definition without_first (k : ckey) : res ckey :=
  match k with
  | Tup l => Ok (match tl l with [x] => One x | l' => Tup l' end)
  | One _ => Err TypeError
  end.
(** remove_leftmost_column (ContingencyTable.py:52-61) *)
Definition remove_leftmost_column (t : ctable) : outcome :=
  match columns t with
  | [] => (t, Err IndexError)
  | _ :: cs => finish true (set_cols t cs) (rekey without_first (ct t))
  end.
(** set_column_order (64-77) *)
Definition reorder (index : list (nat * nat)) (new_order : list nat) (k : ckey) : res ckey :=
  l <- mapM (fun o => i <- of_option KeyError (assoc Nat.eqb o index) ;;
                      match k with Tup l => of_option IndexError (nth_error l i) | One _ => Err TypeError end) new_order ;;
  Ok (Tup l).
(** set_column_order (ContingencyTable.py:64-77) *)
Definition set_column_order (t : ctable) (new_order : list nat) : outcome :=
  if length (columns t) <? 2 then (t, Ok tt) else
  match rekey (reorder (column_index t) new_order) (ct t) with
  | Ok d => (set_ct (update_columns false (set_cols t new_order)) d, Ok tt)
  | Err e => (t, Err e)
  end.
(** append (161-172) with a column and a value: `other` is modified too; dict.update *)
Definition dict_update (d e : list (ckey * Z)) : list (ckey * Z) := fold_left (fun d kn => assoc_set ckey_eqb (fst kn) (snd kn) d) e d.
(** the columns added by append (ContingencyTable.py:161-172) *)
Definition add_missing (cs new : list nat) : list nat := fold_left (fun cs c => if mem c cs then cs else cs ++ [c]) new cs.
(** append (ContingencyTable.py:161-172) *)
Definition append (t : ctable) (column_value : option (nat * Z)) (other : ctable) : outcome :=
  match column_value with
  | None => (set_ct t (dict_update (ct t) (ct other)), Ok tt)
  | Some (column, value) =>
    match prepend_column other column value with
    | (other', Ok _) =>
      let cs := add_missing (columns t) (columns other') in
      let t1 := if length cs =? length (columns t) then t else update_columns true (set_cols t cs) in
      (set_ct t1 (dict_update (ct t1) (ct other')), Ok tt)
    | (_, Err e) => (t, Err e)
    end
  end.
(** deduct (175-178): self.ct[key] -= other_ct[key] *)
Fixpoint deduct (t : ctable) (other : ctable) (items : list (ckey * Z)) : outcome :=
  match items with
  | [] => (t, Ok tt)
  | (k, _) :: items' =>
    match assoc ckey_eqb k (ct t) with
    | None => (t, Err KeyError)
    | Some n => deduct (set_ct t (assoc_set ckey_eqb k (n - get other k)%Z (ct t))) other items'
    end
  end.
(** deduct with another table (ContingencyTable.py:175-178) *)
Definition deduct_table (t other : ctable) : outcome := deduct t other (ct other).
