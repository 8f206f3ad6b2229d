(** Model of the debug variants: mbtk/structures/debug/ADTree__debug.py (ADTreeDebug) and
    mbtk/math/debug/G_test__unoptimized__debug.py, G_test__with_AD_tree__debug.py,
    G_test__with_dcMI__debug.py (three classes G_test_debug).

    Simplifications, besides those of GTest_Model.v: what is printed is reduced to whether a result is
    printed, and to the four numbers in `extra_info`; the source network is absent while a result is
    printed (it is consulted after the test, G_test__unoptimized.py:50-51, also when there is one).

    ADTreeDebug overrides get_ADNode_class, which nothing calls: ADTree.create uses self.ADNodeClass,
    so that its nodes are those of ADTree, and ADNodeDebug, VaryNodeDebug and debug_node are unused. *)
From Coq Require Import Reals.
From Verif Require Import Base AD_Model AD_Query_Model GTest_Model.
Open Scope Z_scope.

(** ** ADTreeDebug *)
(** ADTreeDebug.__init__ (ADTree__debug.py:8-10): `super().__init__(matrix, column_values, leaf_list_threshold=0)` *)
Definition without_leaf_lists (D : dataset) : dataset := {| rows := rows D; ncols := ncols D; colvals := colvals D; threshold := 0 |}.
(** the class of a tree [ADTree.py:25, DynamicADTree.py:21, ADTree__debug.py:6] *)
Inductive tree_class := StaticTree | DynamicTree | DebugTree.
(** whether the class is DynamicADTree (DynamicADTree.py:21-26) *)
Definition is_dynamic (c : tree_class) : bool := match c with DynamicTree => true | _ => false end.
(** the dataset with the threshold that the tree object has [ADTree__debug.py:8-10] *)
Definition tree_data (c : tree_class) (D : dataset) : dataset := match c with DebugTree => without_leaf_lists D | _ => D end.
(** n_queries, n_queries_ll, n_pmf, n_pmf_ll [ADTree__debug.py:68-71] *)
Record counts := { n_queries : Z; n_queries_ll : Z; n_pmf : Z; n_pmf_ll : Z }.
(** debug_reset_query_counts (ADTree__debug.py:68-71) *)
Definition zero_counts : counts := {| n_queries := 0; n_queries_ll := 0; n_pmf := 0; n_pmf_ll := 0 |}.
(** a tree object: its class, its nodes, and the attributes `debug` and the counts, if it has them [ADTree__debug.py:8-25, 68-71] *)
Record tree_object := { t_class : tree_class; t_nodes : adnode; t_debug : option Z; t_counts : option counts }.
(** the constructor of a tree; ADTreeDebug.create (16-25) with the debug argument [debug] *)
Definition new_tree (c : tree_class) (debug : Z) (D : dataset) : res tree_object :=
  t <- build_tree (tree_data c D) (is_dynamic c) ;;
  Ok {| t_class := c; t_nodes := t; t_debug := match c with DebugTree => Some debug | _ => None end;
        t_counts := match c with DebugTree => if 1 <=? debug then Some zero_counts else None | _ => None end |}.
(** `if self.debug >= 1: ...` in a method of ADTreeDebug *)
Definition counting (t : tree_object) : bool :=
  match t_class t, t_debug t with DebugTree, Some d => 1 <=? d | _, _ => false end.
(** ADTree__debug.py:28-46, 118-122 *)
Definition with_counts (t : tree_object) (c : counts) : tree_object :=
  {| t_class := t_class t; t_nodes := t_nodes t; t_debug := t_debug t; t_counts := Some c |}.
(** the tree object after its nodes grew (DynamicADTree.py:40-48) *)
Definition with_nodes (t : tree_object) (n : adnode) : tree_object :=
  {| t_class := t_class t; t_nodes := n; t_debug := t_debug t; t_counts := t_counts t |}.
(** what make_pmf (28-39) does besides ADTree.make_pmf: debug_reset_query_counts (68-71), n_pmf += 1 *)
Definition count_pmf (t : tree_object) : res tree_object :=
  if counting t then
    c <- of_option AttributeError (t_counts t) ;;
    Ok (with_counts t {| n_queries := 0; n_queries_ll := 0; n_pmf := n_pmf c + 1; n_pmf_ll := 0 |})
  else Ok t.
(** what query_count (118-122) does besides ADTree.query_count, for a query without values *)
Definition count_query (t : tree_object) : res tree_object :=
  if counting t then
    c <- of_option AttributeError (t_counts t) ;;
    Ok (with_counts t {| n_queries := n_queries c + 1; n_queries_ll := n_queries_ll c; n_pmf := n_pmf c; n_pmf_ll := n_pmf_ll c |})
  else Ok t.

Section Debug.
  Variable D : dataset.
  Variable p : params.

  (** ** G_test_debug with an AD-tree *)
  (** where the tree comes from: built by the test, with the class 'ci_test_ad_tree_class';
      'ci_test_ad_tree_preloaded', or unpickled from 'ci_test_ad_tree_path__load' [G_test__with_AD_tree.py:29-69] *)
  Inductive tree_source := Build (c : tree_class) | Given (t : tree_object).
  (** the test object: the G-test without its tree, the tree object, and `debug` [G_test__with_AD_tree__debug.py:6-9] *)
  Record ad_debug := { base : state; tree : tree_object; level : Z }.
  (** use_preloaded_AD_tree and load_AD_tree (14-29): `self.AD_tree.debug = self.debug - 1` and
      debug_prepare__querying(), which only ADTreeDebug has.  The tree object is returned in any case:
      the caller who preloaded it still has it. *)
  Definition prepare_tree (debug : Z) (t : tree_object) : tree_object * res unit :=
    if 2 <=? debug then
      let t' := {| t_class := t_class t; t_nodes := t_nodes t; t_debug := Some (debug - 1); t_counts := t_counts t |} in
      match t_class t with
      | DebugTree => (with_counts t' zero_counts, Ok tt)
      | _ => (t', Err AttributeError)
      end
    else (t, Ok tt).
  (** __init__ (6-9): the constructor of the G-test with an AD-tree (G_test__with_AD_tree.py:17-53),
      with the overridden methods; also the tree object after it *)
  Definition ad_debug_start (kind : dof_kind) (debug : Z) (src : tree_source) (dk : disk) : option tree_object * res ad_debug :=
    let given := match src with Build c => (None, new_tree c 0 D) | Given t => let (t', r) := prepare_tree debug t in (Some t', match r with Ok _ => Ok t' | Err e => Err e end) end in
    (fst given,
     t <- snd given ;;
     st <- start (tree_data (t_class t) D) (WithADTree (is_dynamic (t_class t))) kind (Some (t_nodes t)) None dk ;;
     t' <- count_query t ;;
     Ok {| base := st; tree := t'; level := debug |}).

  (** the tables made for a test (G_test__with_AD_tree.py:126-136, 145-149) *)
  Definition tables_of (Z : list nat) : nat := match Z with [] => 3 | _ => 4 end.
  (** make_pmf called several times (ADTree__debug.py:28-39) *)
  Fixpoint count_pmfs (k : nat) (t : tree_object) : res tree_object :=
    match k with O => Ok t | S k' => t1 <- count_pmf t ;; count_pmfs k' t1 end.
  (** G_test_conditionally_independent (45-60), then conditionally_independent of the base class: the
      answer, what is put in extra_info, whether the result is printed.
      `self.AD_tree.debug` of a tree without that attribute is an AttributeError, which is ignored;
      format(...) without the counts is a KeyError, which is not. *)
  Record shown_test := { s_outcome : outcome; s_extra : option counts; s_printed : bool }.
  (** print_ci_test_result (G_test__with_AD_tree__debug.py:66-73) *)
  Definition print_result (debug : Z) (print_inaccurate : bool) : bool :=
    (1 <=? debug) && print_inaccurate. (* result.accurate() is None: computed_d_separation is not set yet [G_test_conditionally_independent (G_test__with_AD_tree__debug.py:42-57)] *)
  Definition ad_debug_test (print_inaccurate : bool) (kind : dof_kind) (g : ad_debug) (X Y : nat) (Z : list nat) : res (shown_test * ad_debug) :=
    t1 <- count_pmfs (tables_of Z) (tree g) ;;
    '(o, st) <- conditionally_independent (tree_data (t_class t1) D) p (WithADTree (is_dynamic (t_class t1))) kind (base g) X Y Z ;;
    n <- of_option AttributeError (ad_tree st) ;;
    extra <- match t_debug t1 with
             | Some d => if 1 <=? d then c <- of_option KeyError (t_counts t1) ;; Ok (Some c) else Ok None
             | None => Ok None
             end ;;
    Ok ({| s_outcome := o; s_extra := extra; s_printed := print_result (level g) print_inaccurate |},
        {| base := st; tree := with_nodes t1 n; level := level g |}).
  (** a sequence of such calls (G_test__with_AD_tree__debug.py:42-57) *)
  Fixpoint ad_debug_tests (print_inaccurate : bool) (kind : dof_kind) (g : ad_debug) (tests : list test) : res (list shown_test * ad_debug) :=
    match tests with
    | [] => Ok ([], g)
    | (X, Y, Z) :: tests' =>
      '(o, g1) <- ad_debug_test print_inaccurate kind g X Y Z ;;
      '(os, g2) <- ad_debug_tests print_inaccurate kind g1 tests' ;;
      Ok (o :: os, g2)
    end.

  (** ** G_test_debug without optimization *)
  (** conditionally_independent (11-14): `result` is the answer, a bool; with debug >= 1 its method
      accurate() is called (24-26).  The object is returned in any case. *)
  Definition plain_debug_test (kind : dof_kind) (debug : Z) (st : state) (X Y : nat) (Z : list nat) : res (state * res outcome) :=
    '(o, st') <- conditionally_independent D p Plain kind st X Y Z ;;
    Ok (st', match o with
             | Verdict b => if 1 <=? debug then Err AttributeError else Ok (Verdict b)
             | RaisesInsufficientSamples => Ok RaisesInsufficientSamples
             end).
  (** calls by a caller that goes on after an exception [G_test__unoptimized__debug.py:11-14] *)
  Fixpoint plain_debug_tests (kind : dof_kind) (debug : Z) (st : state) (tests : list test) : res (state * list (res outcome)) :=
    match tests with
    | [] => Ok (st, [])
    | (X, Y, Z) :: tests' =>
      '(st1, o) <- plain_debug_test kind debug st X Y Z ;;
      '(st2, os) <- plain_debug_tests kind debug st1 tests' ;;
      Ok (st2, o :: os)
    end.

  (** ** G_test_debug with dcMI *)
  (** __init__ (6-8) sets self.debug after the constructor of the base class, which calls
      prepare_JHT (17-21), which reads self.debug.  [attribute] is self.debug at that moment. *)
  Definition prepare_JHT_debug (attribute : option Z) (prepared : res state) : res state :=
    st <- prepared ;;
    d <- of_option AttributeError attribute ;;
    Ok st.
  (** __init__ (G_test__with_dcMI__debug.py:6-8) *)
  Definition dcMI_debug_start (kind : dof_kind) (debug : Z) (preloaded : option jht_dict) (dk : disk) : res (state * option Z) :=
    st <- prepare_JHT_debug None (start D WithDcMI kind None preloaded dk) ;;
    Ok (st, Some debug).
End Debug.
