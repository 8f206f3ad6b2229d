(** Model of contingency trees as Python objects that refer to each other
    (mbtk/structures/ContingencyTree.py) and of make_contingency_tree (mbtk/structures/ADTree.py)
    building them.  AD_Model.v treats contingency trees as values; here nodes are objects on a heap,
    so that sharing and changes in place are visible.
    Simplifications: those of AD_Model.v (AD-tree nodes are values); recursion has explicit fuel. *)
From Verif Require Import Base AD_Model AD_Query_Model.
Open Scope Z_scope.

(** a reference to a ContingencyTreeNode (ContingencyTree.py:4-10) *)
Definition ref := nat.
(** the attributes of a ContingencyTreeNode object (ContingencyTree.py:6-10) *)
Record cnode := CN { n_col : Z; n_value : Z; n_count : option Z; n_children : option (list (Z * ref)) }.
(** all ContingencyTreeNode objects; a reference is a position (ContingencyTree.py:4-10) *)
Definition heap := list cnode.

(** change one object (ContingencyTree.py:18-40, 103-128) *)
Fixpoint hset (h : heap) (l : ref) (x : cnode) : heap :=
  match h, l with
  | [], _ => []
  | _ :: h', O => x :: h'
  | y :: h', Datatypes.S l' => y :: hset h' l' x
  end.
(** ContingencyTreeNode(column, value, count) (ContingencyTree.py:6-10) *)
Definition hnew (h : heap) (col value : Z) (count : option Z) : heap * ref :=
  (h ++ [CN col value count None], length h).

(** append_child (ContingencyTree.py:18-25): the key is the child's value attribute *)
Definition h_append_child (h : heap) (l child : ref) : res heap :=
  match nth_error h l, nth_error h child with
  | Some p, Some c =>
    Ok (hset h l (CN (n_col p) (n_value p) (n_count p)
      (Some (match n_children p with None => [(n_value c, child)]
             | Some d => assoc_set Z.eqb (n_value c) child d end))))
  | _, _ => Err AttributeError
  end.

(** add_count_to_leaf (ContingencyTree.py:28-40); a new child is created and appended before the
    recursive call *)
Fixpoint h_add_count (cols : list nat) (vals : list Z) (cnt : Z) (h : heap) (l : ref) {struct vals} : res heap :=
  match nth_error h l with
  | None => Err AttributeError
  | Some p =>
    match vals with
    | [] => Ok (hset h l (CN (n_col p) (n_value p) (Some (match n_count p with Some m => m + cnt | None => cnt end)) (n_children p)))
    | x :: vals' =>
      match match n_children p with Some d => assoc Z.eqb x d | None => None end with
      | Some c => h_add_count (tl cols) vals' cnt h c
      | None =>
        let '(h1, c) := hnew h (Z.of_nat (hd 0%nat cols)) x None in
        h2 <- h_append_child h1 l c ;; h_add_count (tl cols) vals' cnt h2 c
      end
    end
  end.

(** sum_in_place and subtract_in_place (ContingencyTree.py:103-114, 117-128); the heap is returned
    also when an exception escapes *)
Fixpoint h_combine_in_place (fuel : nat) (op : Z -> Z -> Z) (h : heap) (t o : ref) : heap * res unit :=
  match fuel with
  | O => (h, Err OutOfFuel)
  | Datatypes.S fuel' =>
    match nth_error h t, nth_error h o with
    | Some p, Some q =>
      match n_children p with
      | None =>
        match n_count p, n_count q with
        | Some a, Some b => (hset h t (CN (n_col p) (n_value p) (Some (op a b)) None), Ok tt)
        | _, _ => (h, Err TypeError)
        end
      | Some d =>
        (fix go (d : list (Z * ref)) (h : heap) : heap * res unit :=
           match d with
           | [] => (h, Ok tt)
           | (x, c) :: d' =>
             match match nth_error h o with Some q' => n_children q' | None => None end with
             | None => (h, Err TypeError)
             | Some od =>
               match assoc Z.eqb x od with
               | None => go d' h
               | Some oc =>
                 match h_combine_in_place fuel' op h c oc with
                 | (h', Ok _) => go d' h'
                 | (h', Err e) => (h', Err e)
                 end
               end
             end
           end) d h
      end
    | _, _ => (h, Err AttributeError)
    end
  end.

(** sum and subtract (ContingencyTree.py:69-83, 86-100): new nodes along the common part; a child
    whose key the other tree does not have is appended as it is *)
Fixpoint h_combine (fuel : nat) (op : Z -> Z -> Z) (h : heap) (t o : ref) : heap * res ref :=
  match fuel with
  | O => (h, Err OutOfFuel)
  | Datatypes.S fuel' =>
    match nth_error h t, nth_error h o with
    | Some p, Some q =>
      match n_children p with
      | None =>
        match n_count p, n_count q with
        | Some a, Some b => let '(h1, l) := hnew h (n_col p) (n_value p) (Some (op a b)) in (h1, Ok l)
        | _, _ => (h, Err TypeError)
        end
      | Some d =>
        let '(h1, s) := hnew h (n_col p) (n_value p) None in
        (fix go (d : list (Z * ref)) (h : heap) : heap * res ref :=
           match d with
           | [] => (h, Ok s)
           | (x, c) :: d' =>
             match n_children q with
             | None => (h, Err TypeError)
             | Some od =>
               match match assoc Z.eqb x od with
                     | None => (h, Ok c)
                     | Some oc => h_combine fuel' op h c oc
                     end with
               | (h', Ok c') => match h_append_child h' s c' with Ok h'' => go d' h'' | Err e => (h', Err e) end
               | (h', Err e) => (h', Err e)
               end
             end
           end) d h1
      end
    | _, _ => (h, Err AttributeError)
    end
  end.

(** convert_to_dictionary (ContingencyTree.py:43-66), as in AD_Model.convert *)
Fixpoint h_convert (fuel : nat) (h : heap) (t : ref) (key : list Z) (dict : list (list Z * option Z))
  : res (list Z * list (list Z * option Z)) :=
  match fuel with
  | O => Err OutOfFuel
  | Datatypes.S fuel' =>
    match nth_error h t with
    | None => Err AttributeError
    | Some p =>
      let key1 := if n_value p =? -1 then key else key ++ [n_value p] in
      '(key2, dict2) <-
        match n_children p with
        | None => match key1 with
                  | [] => Err IndexError
                  | _ => Ok (key1, assoc_set (fun a b => if list_eq_dec Z.eq_dec a b then true else false) key1 (n_count p) dict)
                  end
        | Some d =>
          (fix go (l : list (Z * ref)) (kd : list Z * list (list Z * option Z)) :=
             match l with
             | [] => Ok kd
             | (_, c) :: l' => kd' <- h_convert fuel' h c (fst kd) (snd kd) ;; go l' kd'
             end) d (key1, dict)
        end ;;
      Ok (removelast key2, dict2)
    end
  end.

Section Build.
  Variable D : dataset.
  Variable dyn : bool.

  (** make_contingency_tree_from_leaf_list (ADTree.py:331-345) *)
  Definition h_ct_from_leaf (cols : list nat) (n : adnode) (h : heap) : res (heap * ref) :=
    if existsb (fun c => (ncols D <=? c)%nat) cols then Err IndexError else
    match ad_sel n with
    | None => Err TypeError
    | Some l =>
      let '(h0, ct) := hnew h (ad_col n) (ad_value n) None in
      h1 <- foldM (fun h r => key <- mapM (fun c => cell D r c) cols ;; h_add_count cols key 1 h ct) l h0 ;;
      Ok (h1, ct)
    end.

  (** the loop over vary.values (ADTree.py:310-315) *)
  Fixpoint h_visit_values (f : adnode -> heap -> res (heap * ref * adnode)) (mcv : Z) (vals : list Z)
      (ch : list (option adnode)) (acc : ref) (h : heap) : res (heap * list (option adnode)) :=
    match vals with
    | [] => Ok (h, ch)
    | v :: vals' =>
      if v =? mcv then h_visit_values f mcv vals' ch acc h else
      match find_child v ch with
      | None => h_visit_values f mcv vals' ch acc h
      | Some n =>
        '(h1, t, n') <- f n h ;;
        h2 <- h_append_child h1 acc t ;;
        h_visit_values f mcv vals' (put_child v n' ch) acc h2
      end
    end.

  (** the loop over non_mcv_ct.children (ADTree.py:321-323) *)
  Fixpoint h_subtract_all (h : heap) (own : ref) (d : list (Z * ref)) : res heap :=
    match d with
    | [] => Ok h
    | (_, c) :: d' =>
      match h_combine_in_place (Datatypes.S (length h)) Z.sub h own c with
      | (h', Ok _) => h_subtract_all h' own d'
      | (_, Err e) => Err e
      end
    end.

  (** make_contingency_tree (ADTree.py:296-328) *)
  Fixpoint h_mct (cols : list nat) (node : adnode) (h : heap) : res (heap * ref * adnode) :=
    match cols with
    | [] => let '(h1, l) := hnew h (ad_col node) (ad_value node) (Some (ad_count node)) in Ok (h1, l, node)
    | c :: cols' =>
      if ad_leaf node then '(h1, l) <- h_ct_from_leaf cols node h ;; Ok (h1, l, node) else
      let '(h0, non_mcv) := hnew h (ad_col node) (ad_value node) None in
      '(vary, node1) <- get_vary D dyn c node ;;
      '(h1, ch') <- h_visit_values (h_mct cols') (v_mcv vary) (v_values vary) (v_children vary) non_mcv h0 ;;
      let node2 := set_varys node1 (put_vary (set_children vary ch') (ad_varys node1)) in
      '(h2, own, node3) <- h_mct cols' node2 h1 ;;
      h3 <- match nth_error h2 own with
            | None => Err AttributeError
            | Some p => Ok (hset h2 own (CN (Z.of_nat c) (v_mcv vary) (n_count p) (n_children p)))
            end ;;
      h4 <- match nth_error h3 non_mcv with
            | None => Err AttributeError
            | Some p => match n_children p with None => Ok h3 | Some d => h_subtract_all h3 own d end
            end ;;
      h5 <- h_append_child h4 non_mcv own ;;
      Ok (h5, non_mcv, node3)
    end.

  (** make_contingency_table (ADTree.py:287-293) as called by make_pmf (79-90) *)
  Definition h_make_counts (vars : list nat) (t : adnode) (h : heap) : res (list (list Z * option Z) * adnode * heap) :=
    '(h1, l, t') <- h_mct (sort_nat vars) t h ;;
    '(_, d) <- h_convert (Datatypes.S (length h1)) h1 l [] [] ;;
    Ok (d, t', h1).
End Build.

(** counts, count tables and pickling round trips on one AD-tree (ADTree.py:79-185), as in
    AD_Query_Model.do_calls, with the contingency trees of all calls on one heap *)
Fixpoint h_do_calls (D : dataset) (dyn : bool) (cs : list call) (t : adnode) (h : heap) : res (list answer * adnode * heap) :=
  match cs with
  | [] => Ok ([], t, h)
  | c :: cs' =>
    '(a, t1, h1) <- match c with
                    | CCount q => '(n, t') <- query_count D dyn q t ;; Ok (ACount n, t', h)
                    | CCounts vars => '(d, t', h') <- h_make_counts D dyn vars t h ;; Ok (ACounts d, t', h')
                    | CReload => Ok (ANone, pickle_roundtrip dyn t, h)
                    end ;;
    '(l, t2, h2) <- h_do_calls D dyn cs' t1 h1 ;;
    Ok (a :: l, t2, h2)
  end.
