(** ADTree.query / ADTree.p / ADTree.make_pmf (ADTree.py:79-114) over exact reals, call histories
    of a tree object, and the out-of-place contingency-tree arithmetic. *)
From Coq Require Import Reals.
From Verif Require Import Base AD_Model.
Open Scope Z_scope.

(** `joint_query = {}; joint_query.update(given); joint_query.update(values)` (ADTree.py:107-109) *)
Definition dict_update (d1 d2 : query) : query :=
  fold_left (fun d kv => assoc_set Nat.eqb (fst kv) (snd kv) d) d2 d1.

(** ADTree.query (ADTree.py:93-114); `p` is an alias.  Floats are exact reals. *)
Definition query_prob (D : dataset) (dyn : bool) (values given : query) (t : adnode) : res (R * adnode) :=
  '(a, t1) <- query_count D dyn (dict_update (dict_update [] given) values) t ;;
  '(b, t2) <- query_count D dyn given t1 ;;
  if b =? 0 then Err ZeroDivisionError else Ok ((IZR a / IZR b)%R, t2).

(** ADTree.make_pmf (ADTree.py:79-90): divides each count by the root's count. *)
Definition make_pmf (D : dataset) (dyn : bool) (vars : list nat) (t : adnode)
  : res (list (list Z * R) * adnode) :=
  '(d, t') <- make_counts D dyn vars t ;;
  pmf <- mapM (fun kv : list Z * option Z =>
            match snd kv with
            | None => Err TypeError
            | Some n => if ad_count t =? 0 then Err ZeroDivisionError
                        else Ok (fst kv, (IZR n / IZR (ad_count t))%R)
            end) d ;;
  Ok (pmf, t').

(** One call on a tree object; [CReload] is `pickle.loads(pickle.dumps(tree))`, after which the
    reloaded tree is the one that is used (ADTree.py:79-185, 276-284; DynamicADTree.py:51-56). *)
Inductive call := CCount (q : query) | CCounts (vars : list nat) | CReload.
(** what the calls of ADTree.py:79-185 return *)
Inductive answer := ACount (n : Z) | ACounts (d : list (list Z * option Z)) | ANone.
(** one call on the tree object: query_count (ADTree.py:117), make_contingency_table (ADTree.py:287-293), pickling (ADTree.py:276-284) *)
Definition do_call (D : dataset) (dyn : bool) (c : call) (t : adnode) : res (answer * adnode) :=
  match c with
  | CCount q => '(n, t') <- query_count D dyn q t ;; Ok (ACount n, t')
  | CCounts vars => '(d, t') <- make_counts D dyn vars t ;; Ok (ACounts d, t')
  | CReload => Ok (ANone, pickle_roundtrip dyn t)
  end.
(** a sequence of such calls (ADTree.py:79-185) *)
Fixpoint do_calls (D : dataset) (dyn : bool) (cs : list call) (t : adnode) : res (list answer * adnode) :=
  match cs with
  | [] => Ok ([], t)
  | c :: cs' =>
    '(a, t1) <- do_call D dyn c t ;;
    '(l, t2) <- do_calls D dyn cs' t1 ;;
    Ok (a :: l, t2)
  end.

(** ContingencyTreeNode.sum and subtract (ContingencyTree.py:69-100); a new tree with the keys of
    [t].  The result of `sum_node.append_child(sum_child)` is keyed by sum_child.value. *)
Fixpoint combine_new (op : Z -> Z -> Z) (t o : ctnode) {struct t} : res ctnode :=
  match t with CT k v n ch =>
    match ch with
    | None => match n, ct_count o with
              | Some a, Some b => Ok (CT k v (Some (op a b)) None)
              | _, _ => Err TypeError end
    | Some d =>
      (fix go (l : list (Z * ctnode)) (acc : ctnode) : res ctnode :=
         match l with
         | [] => Ok acc
         | (x, c) :: l' =>
           c' <- match ct_children o with
                 | None => Err TypeError
                 | Some od => match assoc Z.eqb x od with
                              | None => Ok c
                              | Some oc => combine_new op c oc end
                 end ;;
           go l' (append_child acc c')
         end) d (CT k v None None)
    end
  end.
(** ContingencyTreeNode.sum (ContingencyTree.py:69-83) *)
Definition ct_sum := combine_new Z.add.
(** ContingencyTreeNode.subtract (ContingencyTree.py:86-100) *)
Definition ct_subtract := combine_new Z.sub.
(** ContingencyTreeNode.sum_in_place (ContingencyTree.py:103-114) *)
Definition ct_sum_in_place := combine_in_place Z.add.
(** ContingencyTreeNode.subtract_in_place (ContingencyTree.py:117-128) *)
Definition ct_subtract_in_place := combine_in_place Z.sub.
