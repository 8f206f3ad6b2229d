(** Model of the static AD-tree (mbtk/structures/ADTree.py), of the dynamic AD-tree
    (mbtk/structures/DynamicADTree.py) and of contingency trees
    (mbtk/structures/ContingencyTree.py).

    Simplifications, everywhere in this file:
    - the timing fields, node counters, `level` and `to_latex`/`__str__` output are left out;
    - column indices of queries are natural numbers; matrix entries are integers;
    - `tree.column_cache` (ADTree.py:426-430) memoises `matrix.getcol`, and the matrix is never
      changed while the tree exists, so the columns are read from the matrix directly;
    - objects mutated in place (dynamic tree nodes, contingency trees) are values that are
      returned updated; no two places of a tree share a node, so this loses nothing;
    - a VaryNode's own `row_selection` is only read while the node is being constructed, so it is
      an argument of the construction and not a field. *)
From Verif Require Import Base.
Open Scope Z_scope.

(** The dataset: `matrix` with `get_shape() = (length rows, ncols)`, and the dictionary
    `column_values` handed to the constructor (ADTree.py:57-69). *)
Record dataset := {
  rows : list (list Z);
  ncols : nat;
  colvals : nat -> option (list Z);      (* column_values[c]; None = KeyError *)
  threshold : Z                          (* leaf_list_threshold, ADTree.py:57-63 *)
}.
(** number of rows of the matrix (matrix.get_shape()[0], ADTree.py:237, 420) *)
Definition nrows (D : dataset) : nat := length (rows D).

(** `matrix[row, col]` (ADTree.py:193): IndexError when out of range. *)
Definition cell (D : dataset) (r c : nat) : res Z :=
  match nth_error (rows D) r with
  | Some row => of_option IndexError (nth_error row c)
  | None => Err IndexError
  end.

(** ADNode (ADTree.py:226-250) and VaryNode (ADTree.py:361-382).  The root has column -1 and
    value -1 (ADTree.py:74). *)
Inductive adnode :=
| AD (count : Z) (col : Z) (value : Z) (leaf : bool) (sel : option (list nat)) (varys : list varynode)
with varynode :=
| Vary (vcol : nat) (values : list Z) (mcv : Z) (children : list (option adnode)).

(** the attribute count of an ADNode (ADTree.py:236-239) *)
Definition ad_count n := match n with AD c _ _ _ _ _ => c end.
(** the attribute column_index of an ADNode (ADTree.py:240) *)
Definition ad_col n := match n with AD _ c _ _ _ _ => c end.
(** the attribute value of an ADNode (ADTree.py:241) *)
Definition ad_value n := match n with AD _ _ v _ _ _ => v end.
(** the attribute leaf_list_node of an ADNode (ADTree.py:242-248) *)
Definition ad_leaf n := match n with AD _ _ _ l _ _ => l end.
(** the attribute row_selection of an ADNode (ADTree.py:235) *)
Definition ad_sel n := match n with AD _ _ _ _ s _ => s end.
(** the attribute Vary_children of an ADNode (ADTree.py:243, 263) *)
Definition ad_varys n := match n with AD _ _ _ _ _ vs => vs end.
(** an ADNode after its Vary_children were changed in place (DynamicADTree.py:47) *)
Definition set_varys n vs := match n with AD c k v l s _ => AD c k v l s vs end.
(** the attribute column_index of a VaryNode (ADTree.py:371) *)
Definition v_col v := match v with Vary c _ _ _ => c end.
(** the attribute values of a VaryNode (ADTree.py:377) *)
Definition v_values v := match v with Vary _ l _ _ => l end.
(** the attribute most_common_value of a VaryNode (ADTree.py:378) *)
Definition v_mcv v := match v with Vary _ _ m _ => m end.
(** the attribute AD_children of a VaryNode (ADTree.py:374, 394) *)
Definition v_children v := match v with Vary _ _ _ ch => ch end.
(** a VaryNode after one of its AD_children grew in place (DynamicADTree.py:40-48) *)
Definition set_children v ch := match v with Vary c l m _ => Vary c l m ch end.

(** `max(self.values, key=lambda v: len(row_subselections[v]))` (discoverMCV, ADTree.py:458-459): Python's max
    returns the first maximal element; ValueError on an empty sequence. *)
Definition py_max {A} (key : A -> Z) (l : list A) : res A :=
  match l with
  | [] => Err ValueError
  | x :: l' => Ok (fold_left (fun best y => if key best <? key y then y else best) l' x)
  end.

Section Build.
  Variable D : dataset.
  Variable dyn : bool.    (* false: ADTree; true: DynamicADTree *)

  (** VaryNode.create_row_subselections_by_value (ADTree.py:409-435): the rows of the selection
      that hold [v] in column [c], in selection order.  (The code builds all groups in one pass
      over a defaultdict; the group of [v] is what is modelled.) *)
  Definition has_value (c : nat) (v : Z) (r : nat) : bool :=
    match cell D r c with Ok x => x =? v | Err _ => false end.
  (** the group of one value in create_row_subselections_by_value (ADTree.py:432-433) *)
  Definition subsel (sel : list nat) (c : nat) (v : Z) : list nat := filter (has_value c v) sel.

  (** `if self.row_selection is None: self.row_selection = range(0, row_count)` (ADTree.py:417-421) *)
  Definition eff_sel (sel : option (list nat)) : list nat :=
    match sel with None => seq 0 (nrows D) | Some l => l end.

  (** VaryNode.__init__ and create_AD_children (ADTree.py:368-394).  [mk v sel] constructs the AD
      child.  `matrix.getcol` raises IndexError for a column out of range. *)
  Definition make_vary (mk : Z -> list nat -> res adnode) (sel : option (list nat)) (c : nat)
    : res varynode :=
    if (ncols D <=? c)%nat then Err IndexError else
    vals <- of_option KeyError (colvals D c) ;;
    mcv <- py_max (fun v => Z.of_nat (length (subsel (eff_sel sel) c v))) vals ;;
    ch <- mapM (fun v =>
            let s := subsel (eff_sel sel) c v in
            if ((0 <? length s)%nat && negb (v =? mcv))%bool
            then n <- mk v s ;; Ok (Some n) else Ok None) vals ;;
    Ok (Vary c vals mcv ch).

  (** ADNode.__init__ (ADTree.py:233-250); [varys] are the children made by create_Vary_children. *)
  Definition node_count (sel : option (list nat)) : Z :=
    match sel with None => Z.of_nat (nrows D) | Some l => Z.of_nat (length l) end.
  (** the comparison with leaf_list_threshold (ADTree.py:247-248) *)
  Definition is_leaf (sel : option (list nat)) : bool := node_count sel <? threshold D.
  (** the rest of ADNode.__init__ (ADTree.py:240-250) *)
  Definition mk_ad (col value : Z) (sel : option (list nat)) (mkvarys : option (list nat) -> res (list varynode))
    : res adnode :=
    if is_leaf sel then Ok (AD (node_count sel) col value true sel [])
    else vs <- mkvarys sel ;; Ok (AD (node_count sel) col value false sel vs).

  (** create_Vary_children (ADTree.py:253-263): one Vary node for each column from
      column_index+1 to the last.  [k] is the number of columns that remain, so the first remaining
      column is [ncols - k].  For the dynamic tree (DynamicADTree.py:36-37) it does nothing. *)
  Fixpoint build_varys (k : nat) (sel : option (list nat)) : res (list varynode) :=
    match k with
    | O => Ok []
    | S k' =>
      let c := (ncols D - S k')%nat in
      v <- make_vary (fun value s => mk_ad (Z.of_nat c) value (Some s) (build_varys k')) sel c ;;
      vs <- build_varys k' sel ;;
      Ok (v :: vs)
    end.

  (** create_Vary_children of the static tree (ADTree.py:253-263) or of the dynamic tree (DynamicADTree.py:36-37) *)
  Definition create_varys (k : nat) (sel : option (list nat)) : res (list varynode) :=
    if dyn then Ok [] else build_varys k sel.

  (** ADTree.create / DynamicADTree.create (ADTree.py:72-76, DynamicADTree.py:25-26). *)
  Definition build_tree : res adnode := mk_ad (-1) (-1) None (create_varys (ncols D)).

  (** get_Vary_child_for_column (ADTree.py:266-273): first Vary child with that column. *)
  Fixpoint find_vary (c : nat) (vs : list varynode) : option varynode :=
    match vs with
    | [] => None
    | v :: vs' => if (v_col v =? c)%nat then Some v else find_vary c vs'
    end.
  (** the same node after an in-place change [replace the Vary node of that column, standing for an in-place change (DynamicADTree.py:40-48)] *)
  Fixpoint put_vary (v : varynode) (vs : list varynode) : list varynode :=
    match vs with
    | [] => []
    | w :: vs' => if (v_col w =? v_col v)%nat then v :: vs' else w :: put_vary v vs'
    end.

  (** The static version returns None for a missing column, which the callers dereference
      (`vary.get_AD_child_for_value`, `vary.values`): AttributeError.  The dynamic version
      (DynamicADTree.py:40-48) constructs and appends the node. *)
  Definition get_vary (c : nat) (n : adnode) : res (varynode * adnode) :=
    match find_vary c (ad_varys n) with
    | Some v => Ok (v, n)
    | None =>
      if dyn then
        v <- make_vary (fun value s => mk_ad (Z.of_nat c) value (Some s) (fun _ => Ok [])) (ad_sel n) c ;;
        Ok (v, set_varys n (ad_varys n ++ [v]))
      else Err AttributeError
    end.

  (** get_AD_child_for_value (ADTree.py:438-447) and its in-place counterpart. *)
  Fixpoint find_child (v : Z) (ch : list (option adnode)) : option adnode :=
    match ch with
    | [] => None
    | Some n :: ch' => if ad_value n =? v then Some n else find_child v ch'
    | None :: ch' => find_child v ch'
    end.
  (** replace the child for a value, standing for an in-place change of that child (DynamicADTree.py:40-48) *)
  Fixpoint put_child (v : Z) (n' : adnode) (ch : list (option adnode)) : list (option adnode) :=
    match ch with
    | [] => []
    | Some n :: ch' => if ad_value n =? v then Some n' :: ch' else Some n :: put_child v n' ch'
    | None :: ch' => None :: put_child v n' ch'
    end.

  (** sum_non_MCV_children_count (ADTree.py:454-455) *)
  Definition children_count (ch : list (option adnode)) : Z :=
    zsum (map (fun o => match o with Some n => ad_count n | None => 0 end) ch).

  (** a query `values`: a dict from column index to value (ADTree.py:117-121) *)
  Definition query := list (nat * Z).

  (** sorted(list(values.keys()))[0] (ADTree.py:133-134) *)
  Definition min_key (q : query) (d : nat) : nat := fold_left Nat.min (map fst q) d.
  (** next_values.pop(column_index) (ADTree.py:148-149) *)
  Definition qremove (c : nat) (q : query) : query := filter (fun kv => negb (fst kv =? c)%nat) q.

  (** query_count_in_leaf_list_node (ADTree.py:188-197): no early exit from the inner loop, so an
      out-of-range column raises whenever there is a row to look at; `row_selection` None: TypeError. *)
  Definition row_matches (r : nat) (q : query) : res bool :=
    foldM (fun (m : bool) (kv : nat * Z) => x <- cell D r (fst kv) ;; Ok (if x =? snd kv then m else false)) q true.
  (** the loop over the rows of a leaf-list node (ADTree.py:188-197) *)
  Definition count_leaf (q : query) (sel : option (list nat)) : res Z :=
    match sel with
    | None => Err TypeError
    | Some l => foldM (fun n r => b <- row_matches r q ;; Ok (if b : bool then n + 1 else n)) l 0
    end.

  (** apply a stateful visit to each non-None child, summing the results (ADTree.py:180-183) *)
  Fixpoint visit_sum (f : adnode -> res (Z * adnode)) (ch : list (option adnode))
    : res (Z * list (option adnode)) :=
    match ch with
    | [] => Ok (0, [])
    | None :: ch' => '(s, r) <- visit_sum f ch' ;; Ok (s, None :: r)
    | Some n :: ch' =>
        '(x, n') <- f n ;; '(s, r) <- visit_sum f ch' ;; Ok (x + s, Some n' :: r)
    end.

  (** ADTree.query_count (ADTree.py:117-185).  [fuel] bounds the number of columns in the query
      (the recursion always removes one).  The node is returned because the dynamic tree grows. *)
  Fixpoint qc (fuel : nat) (q : query) (node : adnode) : res (Z * adnode) :=
    match q with
    | [] => Ok (ad_count node, node)
    | (c0, v0) :: _ =>
      if ad_leaf node then n <- count_leaf q (ad_sel node) ;; Ok (n, node) else
      match fuel with
      | O => Err OutOfFuel
      | S fuel' =>
        let c := min_key q c0 in
        match assoc Nat.eqb c q with
        | None => Err KeyError
        | Some v =>
          let next := qremove c q in
          '(vary, node1) <- get_vary c node ;;
          match find_child v (v_children vary) with
          | Some child =>
              '(n, child') <- qc fuel' next child ;;
              Ok (n, set_varys node1 (put_vary (set_children vary (put_child v child' (v_children vary))) (ad_varys node1)))
          | None =>
              if negb (v_mcv vary =? v) then Ok (0, node1) else
              match next with
              | [] => Ok (ad_count node1 - children_count (v_children vary), node1)
              | _ =>
                '(s, ch') <- visit_sum (qc fuel' next) (v_children vary) ;;
                let node2 := set_varys node1 (put_vary (set_children vary ch') (ad_varys node1)) in
                '(p, node3) <- qc fuel' next node2 ;;
                Ok (p - s, node3)
              end
          end
        end
      end
    end.

  (** `tree.query_count(values)` (ADTree.py:117-123) *)
  Definition query_count (q : query) (t : adnode) : res (Z * adnode) := qc (length q) q t.

  (** ** Contingency trees *)

  (** ContingencyTreeNode (ContingencyTree.py:4-10): `children` is None or a dict. *)
  Inductive ctnode := CT (ccol : Z) (cvalue : Z) (ccount : option Z) (cchildren : option (list (Z * ctnode))).
  (** the attribute value of a ContingencyTreeNode (ContingencyTree.py:8) *)
  Definition ct_value t := match t with CT _ v _ _ => v end.
  (** the attribute count of a ContingencyTreeNode (ContingencyTree.py:9) *)
  Definition ct_count t := match t with CT _ _ n _ => n end.
  (** the attribute children of a ContingencyTreeNode (ContingencyTree.py:10) *)
  Definition ct_children t := match t with CT _ _ _ ch => ch end.

  (** append_child (ContingencyTree.py:18-25) *)
  Definition append_child (t c : ctnode) : ctnode :=
    match t with CT k v n ch =>
      CT k v n (Some (match ch with None => [(ct_value c, c)]
                                 | Some d => assoc_set Z.eqb (ct_value c) c d end))
    end.

  (** add_count_to_leaf (ContingencyTree.py:28-40) *)
  Fixpoint add_count_to_leaf (cols : list nat) (vals : list Z) (cnt : Z) (t : ctnode) {struct vals} : ctnode :=
    match t with CT k v n ch =>
      match vals with
      | [] => CT k v (Some (match n with Some m => m + cnt | None => cnt end)) ch
      | x :: vals' =>
        let old := match ch with Some d => assoc Z.eqb x d | None => None end in
        let child := match old with Some c => c | None => CT (Z.of_nat (hd 0%nat cols)) x None None end in
        let child' := add_count_to_leaf (tl cols) vals' cnt child in
        CT k v n (Some (match ch with
                        | None => [(x, child')]
                        | Some d => assoc_set Z.eqb x child' d end))
      end
    end.

  (** subtract_in_place (ContingencyTree.py:117-128) and sum_in_place (ContingencyTree.py:103-114);
      [op] is - or +.  A leaf needs two integers (None: TypeError); an inner node subscripts
      `other.children` (None: TypeError); a missing key is skipped. *)
  Fixpoint combine_in_place (op : Z -> Z -> Z) (t o : ctnode) {struct t} : res ctnode :=
    match t with CT k v n ch =>
      match ch with
      | None => match n, ct_count o with
                | Some a, Some b => Ok (CT k v (Some (op a b)) None)
                | _, _ => Err TypeError end
      | Some d =>
          d' <- (fix go (l : list (Z * ctnode)) : res (list (Z * ctnode)) :=
                   match l with
                   | [] => Ok []
                   | (x, c) :: l' =>
                     c' <- match ct_children o with
                           | None => Err TypeError
                           | Some od => match assoc Z.eqb x od with
                                        | None => Ok c
                                        | Some oc => combine_in_place op c oc end
                           end ;;
                     r <- go l' ;; Ok ((x, c') :: r)
                   end) d ;;
          Ok (CT k v n (Some d'))
      end
    end.

  (** make_contingency_tree_from_leaf_list (ADTree.py:331-345): `matrix.getcol` / `matrix[:, columns]`
      raise IndexError for a column out of range; row_selection None: TypeError. *)
  Definition ct_from_leaf (cols : list nat) (n : adnode) : res ctnode :=
    if existsb (fun c => (ncols D <=? c)%nat) cols then Err IndexError else
    match ad_sel n with
    | None => Err TypeError
    | Some l =>
      foldM (fun t r => key <- mapM (fun c => cell D r c) cols ;; Ok (add_count_to_leaf cols key 1 t))
            l (CT (ad_col n) (ad_value n) None None)
    end.

  (** the loop over `vary.values` (ADTree.py:310-315): visits the non-MCV children in the order
      of the values, appending their trees. *)
  Fixpoint visit_values (f : adnode -> res (ctnode * adnode)) (mcv : Z) (vals : list Z)
      (ch : list (option adnode)) (acc : ctnode) : res (ctnode * list (option adnode)) :=
    match vals with
    | [] => Ok (acc, ch)
    | v :: vals' =>
      if v =? mcv then visit_values f mcv vals' ch acc else
      match find_child v ch with
      | None => visit_values f mcv vals' ch acc
      | Some n => '(t, n') <- f n ;; visit_values f mcv vals' (put_child v n' ch) (append_child acc t)
      end
    end.

  (** make_contingency_tree (ADTree.py:296-328), recursion on the list of columns. *)
  Fixpoint mct (cols : list nat) (node : adnode) : res (ctnode * adnode) :=
    match cols with
    | [] => Ok (CT (ad_col node) (ad_value node) (Some (ad_count node)) None, node)
    | c :: cols' =>
      if ad_leaf node then t <- ct_from_leaf cols node ;; Ok (t, node) else
      '(vary, node1) <- get_vary c node ;;
      '(non_mcv, ch') <- visit_values (mct cols') (v_mcv vary) (v_values vary) (v_children vary)
                            (CT (ad_col node) (ad_value node) None None) ;;
      let node2 := set_varys node1 (put_vary (set_children vary ch') (ad_varys node1)) in
      '(own, node3) <- mct cols' node2 ;;
      let own' := match own with CT _ _ n ch => CT (Z.of_nat c) (v_mcv vary) n ch end in
      mcv_ct <- match ct_children non_mcv with
                | None => Ok own'
                | Some d => foldM (fun t kv => combine_in_place Z.sub t (snd kv)) d own'
                end ;;
      Ok (append_child non_mcv mcv_ct, node3)
    end.

  (** convert_to_dictionary (ContingencyTree.py:43-66).  The key is a deque shared by the whole
      traversal, pushed only when the value is not -1 but always popped.  A one-element key is
      stored as the bare value and longer ones as a tuple: both are lists here (no tuple of
      length one is ever stored); an empty key raises IndexError (`key[0]`). The count stored may
      be None in Python; it is an option here as well. *)
  Fixpoint convert (t : ctnode) (key : list Z) (dict : list (list Z * option Z)) {struct t}
    : res (list Z * list (list Z * option Z)) :=
    match t with CT _ v n ch =>
      let key1 := if v =? -1 then key else key ++ [v] in
      '(key2, dict2) <-
        match ch with
        | None => match key1 with
                  | [] => Err IndexError
                  | _ => Ok (key1, assoc_set (fun a b => if list_eq_dec Z.eq_dec a b then true else false) key1 n dict)
                  end
        | Some d =>
          (fix go (l : list (Z * ctnode)) (kd : list Z * list (list Z * option Z)) :=
             match l with
             | [] => Ok kd
             | (_, c) :: l' => kd' <- convert c (fst kd) (snd kd) ;; go l' kd'
             end) d (key1, dict)
        end ;;
      Ok (removelast key2, dict2)
    end.

  (** ADTree.make_pmf (ADTree.py:79-90), up to the division: the dictionary of counts and the
      total.  (`count / total_count` raises ZeroDivisionError if there are no rows.) *)
  Definition make_counts (vars : list nat) (t : adnode) : res (list (list Z * option Z) * adnode) :=
    '(ct, t') <- mct (sort_nat vars) t ;;
    '(_, d) <- convert ct [] [] ;;
    Ok (d, t').

End Build.

(** ** Pickling *)

(** ADNode.__getstate__/__setstate__ and VaryNode.__getstate__/__setstate__ (ADTree.py:276-284,
    401-406): a static AD node forgets its row selection unless it is a leaf-list node.  The
    dynamic AD node (DynamicADTree.py:51-56) keeps everything. *)
Fixpoint pickle_static (n : adnode) : adnode :=
  match n with AD cnt col v leaf sel vs =>
    AD cnt col v leaf (if leaf then sel else None) (map pickle_static_vary vs)
  end
with pickle_static_vary (v : varynode) : varynode :=
  match v with Vary c vals m ch => Vary c vals m (map (option_map pickle_static) ch) end.

(** pickle.loads(pickle.dumps(tree)): static (ADTree.py:276-284) or dynamic (DynamicADTree.py:51-56) *)
Definition pickle_roundtrip (dyn : bool) (n : adnode) : adnode :=
  if dyn then n else pickle_static n.
