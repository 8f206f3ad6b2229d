(** Several G-test objects alive at the same time, handed the same AD-tree
    (`ci_test_ad_tree_preloaded`) or the same dictionary of joint entropies
    (`ci_test_jht_preloaded`): both are taken by reference (G_test__with_AD_tree.py:55-56,
    G_test__with_dcMI.py:27-28), so what one object adds, all see.

    Simplifications: those of GTest_Model.v; no load paths; an exception other than
    InsufficientSamplesForCITest leaves the world as it was before the call (the entries that the
    failing call added to a shared dictionary are not modelled). *)
From Coq Require Import Reals.
From Verif Require Import Base AD_Model AD_Query_Model Key_Model PMF_Model MB_Model GTest_Model.
Open Scope Z_scope.

(** an AD-tree object: it keeps its own matrix and column values (ADTree.py:57-69), whatever
    dataset the G-test object has *)
Record tree_cell := { tc_data : dataset; tc_dyn : bool; tc_root : adnode }.
(** what the object shares: nothing, the tree at a place or the dictionary at a place
    (G_test__with_AD_tree.py:28-35, 55-56; G_test__with_dcMI.py:25-31) *)
Inductive part := NoPart | TreeAt (k : nat) | DictAt (k : nat).
(** a G-test object (G_test__unoptimized.py:19-42); the shared part is in the world, the rest in
    [g_state] *)
Record gobj := { g_data : dataset; g_params : params; g_kind : dof_kind; g_part : part; g_state : state }.
(** all objects; None: a constructor raised, the name is not bound [G_test__unoptimized.py:19-42,
    ADTree.py:57-69, G_test__with_dcMI.py:20] *)
Record world := { trees : list tree_cell; dicts : list jht_dict; objs : list (option gobj) }.
(** what the program does: build a tree (ADTree.py:57-69), make a dictionary, construct a test
    object — plain (G_test__unoptimized.py:19), on a tree (G_test__with_AD_tree.py:17; an object
    that builds its own tree is one that gets a new tree), with joint entropies in its own new
    dictionary or in a given one (G_test__with_dcMI.py:13) —, ask an object
    (G_test__unoptimized.py:45), end an object with or without a save path
    (G_test__with_dcMI.py:118-126) *)
Inductive action :=
| MakeTree (D : dataset) (dyn : bool)
| MakeDict (d : jht_dict)
| NewPlain (D : dataset) (p : params) (kind : dof_kind)
| NewOnTree (D : dataset) (p : params) (kind : dof_kind) (k : nat)
| NewDcMI (D : dataset) (p : params) (kind : dof_kind) (k : option nat)
| Test (i : nat) (t : test)
| End (i : nat) (save : bool).
(** what the program sees: an exception, an answer of conditionally_independent, or neither
    (G_test__unoptimized.py:45-62) *)
Inductive answer := Done | Answered (o : outcome) | Raised (e : pyerr).

(** assignment through a reference [self.JHT[key] = H (G_test__with_dcMI.py:111); the nodes that a
    dynamic tree adds (DynamicADTree.py:40-48)] *)
Definition put {A} (i : nat) (x : A) (l : list A) : list A :=
  map (fun jy => if (fst jy =? i)%nat then x else snd jy) (combine (seq 0 (length l)) l).
(** no load path leads to a file (G_test__with_dcMI.py:33-34, DoFCalculators.py:117-130) *)
Definition nothing_saved : disk := {| f_results := Absent; f_dofs := Absent; f_jht := Absent |}.
(** the object's own attributes with the shared ones filled in (G_test__with_AD_tree.py:56,
    G_test__with_dcMI.py:28) *)
Definition with_tree (t : adnode) (st : state) : state :=
  {| ad_tree := Some t; sample_size := sample_size st; jht := jht st; jht_counters := jht_counters st; jht_reads := jht_reads st;
     jht_misses := jht_misses st; dof_cache := dof_cache st; results := results st; ci_test_counter := ci_test_counter st |}.
(** the same for the dictionary (G_test__with_dcMI.py:28) *)
Definition with_dict (d : jht_dict) (st : state) : state :=
  {| ad_tree := ad_tree st; sample_size := sample_size st; jht := fst d; jht_counters := snd d; jht_reads := jht_reads st;
     jht_misses := jht_misses st; dof_cache := dof_cache st; results := results st; ci_test_counter := ci_test_counter st |}.

(** G_test_conditionally_independent on a tree (G_test__with_AD_tree.py:79-116) whose data [Dt] need
    not be the object's dataset [D]: the tables come from the tree, N from the tree
    (G_test__with_AD_tree.py:49-51), the declared values from [D] (DoFCalculators.py:16-20, 28-40) *)
Definition run_on_tree (Dt D : dataset) (p : params) (dyn : bool) (kind : dof_kind) (st : state) (X Y : nat) (Z : list nat) : res (result * state) :=
  t <- of_option AttributeError (ad_tree st) ;;
  '(CXY, CX, CY, PZ, c', t') <- ad_tables Dt dyn kind (dof_cache st) t X Y Z ;;
  '(DoF, CX', CY') <- calculate_DoF D kind c' X Y Z CX CY PZ ;;
  r <- decide p (sample_size st) (ci_test_counter st + 1) X Y Z DoF (G_from_tables (sample_size st) CXY CX' CY' PZ) ;;
  Ok (r, add_result st (Some t') (hstate_of st c') r).

(** a new object is added to the others [G_test__unoptimized.py:19-42] *)
Definition add_object (o : option gobj) (w : world) : world := {| trees := trees w; dicts := dicts w; objs := objs w ++ [o] |}.
(** an object changes [G_test__unoptimized.py:53-54: results and counter] *)
Definition set_object (i : nat) (o : gobj) (w : world) : world := {| trees := trees w; dicts := dicts w; objs := put i (Some o) (objs w) |}.
(** a shared tree changes (DynamicADTree.py:40-48) *)
Definition set_tree (k : nat) (t : tree_cell) (w : world) : world := {| trees := put k t (trees w); dicts := dicts w; objs := objs w |}.
(** a shared dictionary changes (G_test__with_dcMI.py:111, 123-124) *)
Definition set_dict (k : nat) (d : jht_dict) (w : world) : world := {| trees := trees w; dicts := put k d (dicts w); objs := objs w |}.
(** the object after a test [G_test__unoptimized.py:53-54] *)
Definition with_state (o : gobj) (st : state) : gobj :=
  {| g_data := g_data o; g_params := g_params o; g_kind := g_kind o; g_part := g_part o; g_state := st |}.
(** the tree in a test object's attribute (G_test__with_AD_tree.py:56) *)
Definition tree_of (st : state) (t : adnode) : adnode := match ad_tree st with Some t' => t' | None => t end.

(** one action [G_test__with_AD_tree.py:28-56, 79-116; G_test__with_dcMI.py:13-38, 41-126;
    G_test__unoptimized.py:19-62] *)
Definition step (w : world) (a : action) : world * answer :=
  match a with
  | MakeTree D dyn =>
    match build_tree D dyn with
    | Ok t => ({| trees := trees w ++ [{| tc_data := D; tc_dyn := dyn; tc_root := t |}]; dicts := dicts w; objs := objs w |}, Done)
    | Err e => (w, Raised e)
    end
  | MakeDict d => ({| trees := trees w; dicts := dicts w ++ [d]; objs := objs w |}, Done)
  | NewPlain D p kind =>
    match start D Plain kind None None nothing_saved with
    | Ok st => (add_object (Some {| g_data := D; g_params := p; g_kind := kind; g_part := NoPart; g_state := st |}) w, Done)
    | Err e => (add_object None w, Raised e)
    end
  | NewOnTree D p kind k =>
    match nth_error (trees w) k with
    | None => (add_object None w, Raised NameErr)
    | Some c =>
      match start (tc_data c) (WithADTree (tc_dyn c)) kind (Some (tc_root c)) None nothing_saved with
      | Ok st => (add_object (Some {| g_data := D; g_params := p; g_kind := kind; g_part := TreeAt k; g_state := st |})
                    (set_tree k {| tc_data := tc_data c; tc_dyn := tc_dyn c; tc_root := tree_of st (tc_root c) |} w), Done)
      | Err e => (add_object None w, Raised e)
      end
    end
  | NewDcMI D p kind None =>
    match start D WithDcMI kind None None nothing_saved with
    | Ok st => (add_object (Some {| g_data := D; g_params := p; g_kind := kind; g_part := DictAt (length (dicts w)); g_state := st |})
                  {| trees := trees w; dicts := dicts w ++ [([], None)]; objs := objs w |}, Done)
    | Err e => (add_object None w, Raised e)
    end
  | NewDcMI D p kind (Some k) =>
    match nth_error (dicts w) k with
    | None => (add_object None w, Raised NameErr)
    | Some d =>
      match start D WithDcMI kind None (Some d) nothing_saved with
      | Ok st => (add_object (Some {| g_data := D; g_params := p; g_kind := kind; g_part := DictAt k; g_state := st |}) w, Done)
      | Err e => (add_object None w, Raised e)
      end
    end
  | Test i (X, Y, Z) =>
    match nth_error (objs w) i with
    | Some (Some o) =>
      match g_part o with
      | NoPart =>
        match run_test (g_data o) (g_params o) Plain (g_kind o) (g_state o) X Y Z with
        | Ok (r, st) => (set_object i (with_state o st) w, Answered (outcome_of r))
        | Err e => (w, Raised e)
        end
      | TreeAt k =>
        match nth_error (trees w) k with
        | None => (w, Raised NameErr)
        | Some c =>
          match run_on_tree (tc_data c) (g_data o) (g_params o) (tc_dyn c) (g_kind o) (with_tree (tc_root c) (g_state o)) X Y Z with
          | Ok (r, st) => (set_object i (with_state o st)
                             (set_tree k {| tc_data := tc_data c; tc_dyn := tc_dyn c; tc_root := tree_of st (tc_root c) |} w), Answered (outcome_of r))
          | Err e => (w, Raised e)
          end
        end
      | DictAt k =>
        match nth_error (dicts w) k with
        | None => (w, Raised NameErr)
        | Some d =>
          match run_test (g_data o) (g_params o) WithDcMI (g_kind o) (with_dict d (g_state o)) X Y Z with
          | Ok (r, st) => (set_object i (with_state o st) (set_dict k (jht st, jht_counters st) w), Answered (outcome_of r))
          | Err e => (w, Raised e)
          end
        end
      end
    | _ => (w, Raised NameErr)
    end
  | End i save =>
    match nth_error (objs w) i with
    | Some (Some o) =>
      match g_part o with
      | DictAt k =>
        match nth_error (dicts w) k with
        | None => (w, Raised NameErr)
        | Some d => ((if save then set_dict k (fst d, Some (jht_reads (g_state o), jht_misses (g_state o))) w else w), Done)
        end
      | _ => (w, Done)
      end
    | _ => (w, Raised NameErr)
    end
  end.
(** the actions of a program, one after the other [each a call in G_test__unoptimized.py:19-62] *)
Fixpoint run (w : world) (acts : list action) : list answer * world :=
  match acts with
  | [] => ([], w)
  | a :: acts' => let '(w1, o) := step w a in let '(os, w2) := run w1 acts' in (o :: os, w2)
  end.
(** before the first of them [no object of G_test__unoptimized.py:19 exists] *)
Definition empty_world : world := {| trees := []; dicts := []; objs := [] |}.
