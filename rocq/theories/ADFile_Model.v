(** Successive processes that use G-tests on AD-trees kept in files (`ci_test_ad_tree_path__load`,
    `ci_test_ad_tree_path__save`): G_test__with_AD_tree.py:28-76, 217-220.

    Simplifications: those of GTest_Model.v; one G-test object per process; no preloaded tree (that
    is Shared_Model.v) and no other files (results, degrees of freedom: GTest_Model.v); a file is
    missing, cut off or complete; writing one truncates it first; an exception in a test ends the
    process, and its earlier answers are not reported. *)
From Coq Require Import Reals.
From Verif Require Import Base AD_Model AD_Query_Model Key_Model PMF_Model MB_Model GTest_Model Shared_Model.
Open Scope Z_scope.

(** the files; a path is a number [G_test__with_AD_tree.py:60-61, 74-76] *)
Definition files := nat -> file tree_cell.
(** a process: its dataset and the parameters of the test (G_test__unoptimized.py:19-42), the class
    of the tree (true: dynamic) and its threshold (G_test__with_AD_tree.py:65-66), the two paths
    (G_test__with_AD_tree.py:41, 73), its tests, and the number of writes that it completes before it
    is killed (enough: it is not killed) *)
Record process := { pr_data : dataset; pr_params : params; pr_kind : dof_kind; pr_dynamic : bool; pr_threshold : Z;
  pr_load : option nat; pr_save : option nat; pr_tests : list test; pr_writes : nat }.
(** what the process sees: an exception in the constructor, the end while the constructor saves, an
    exception in a test, or the answers [G_test__with_AD_tree.py:17-53] *)
Inductive report := CouldNotStart (e : pyerr) | KilledBuilding | TestFailed (e : pyerr) | Answers (os : list outcome).

(** the dataset as the tree gets it: with the threshold of the parameters [G_test__with_AD_tree.py:66-68] *)
Definition with_threshold (D : dataset) (th : Z) : dataset := {| rows := rows D; ncols := ncols D; colvals := colvals D; threshold := th |}.
(** one file changes [G_test__with_AD_tree.py:75] *)
Definition set_file (fs : files) (i : nat) (f : file tree_cell) : files := fun j => if (j =? i)%nat then f else fs j.
(** what unpickling the pickled tree gives (ADTree.py:276-284, DynamicADTree.py:51-56); the matrix and
    the column values go along (ADTree.py:57-69) *)
Definition pickled (c : tree_cell) : tree_cell := {| tc_data := tc_data c; tc_dyn := tc_dyn c; tc_root := pickle_roundtrip (tc_dyn c) (tc_root c) |}.
(** save_AD_tree (G_test__with_AD_tree.py:72-76): open('wb') truncates, then the pickle is written *)
Definition save_steps (path : option nat) (c : tree_cell) : list (files -> files) :=
  match path with
  | None => []
  | Some i => [(fun fs => set_file fs i Torn); (fun fs => set_file fs i (Saved (pickled c)))]
  end.
(** the first [n] writes [G_test__with_AD_tree.py:75-76] *)
Definition do_writes (n : nat) (steps : list (files -> files)) (fs : files) : files := fold_left (fun fs f => f fs) (firstn n steps) fs.

(** the tests one after the other (G_test__unoptimized.py:45-62, G_test__with_AD_tree.py:79-116) *)
Fixpoint tests_on_tree (Dt D : dataset) (p : params) (dyn : bool) (kind : dof_kind) (st : state) (tests : list test) : res (list outcome * state) :=
  match tests with
  | [] => Ok ([], st)
  | (X, Y, Z) :: tests' =>
    '(r, st1) <- run_on_tree Dt D p dyn kind st X Y Z ;;
    '(os, st2) <- tests_on_tree Dt D p dyn kind st1 tests' ;;
    Ok (outcome_of r :: os, st2)
  end.
(** the process once the object has its tree: N (G_test__with_AD_tree.py:51), the tests, and end()
    (G_test__with_AD_tree.py:217-220), of whose writes [n] are completed *)
Definition use_tree (fs : files) (n : nat) (p : process) (c : tree_cell) : files * report :=
  match start (tc_data c) (WithADTree (tc_dyn c)) (pr_kind p) (Some (tc_root c)) None nothing_saved with
  | Err e => (fs, CouldNotStart e)
  | Ok st =>
    match tests_on_tree (tc_data c) (pr_data p) (pr_params p) (tc_dyn c) (pr_kind p) st (pr_tests p) with
    | Err e => (fs, TestFailed e)
    | Ok (os, st') =>
      (do_writes n (save_steps (pr_save p) {| tc_data := tc_data c; tc_dyn := tc_dyn c; tc_root := tree_of st' (tc_root c) |}) fs, Answers os)
    end
  end.
(** what is at the load path, if there is one [G_test__with_AD_tree.py:41-42] *)
Definition opened (fs : files) (p : process) : file tree_cell := match pr_load p with Some i => fs i | None => Absent end.
(** one process: prepare_AD_tree (G_test__with_AD_tree.py:28-51), tests, end *)
Definition run_process (fs : files) (p : process) : files * report :=
  match opened fs p with
  | Torn => (fs, CouldNotStart PickleErr)
  | Saved c => use_tree fs (pr_writes p) p c
  | Absent =>
    let D := with_threshold (pr_data p) (pr_threshold p) in
    match build_tree D (pr_dynamic p) with
    | Err e => (fs, CouldNotStart e)
    | Ok t =>
      let c := {| tc_data := D; tc_dyn := pr_dynamic p; tc_root := t |} in
      let steps := save_steps (pr_save p) c in
      let fs1 := do_writes (pr_writes p) steps fs in
      if (pr_writes p <? length steps)%nat then (fs1, KilledBuilding)
      else use_tree fs1 (pr_writes p - length steps) p c
    end
  end.
(** processes one after the other [G_test__with_AD_tree.py:28-51, 217-220] *)
Fixpoint run_processes (fs : files) (ps : list process) : list report * files :=
  match ps with
  | [] => ([], fs)
  | p :: ps' => let '(fs1, r) := run_process fs p in let '(rs, fs2) := run_processes fs1 ps' in (r :: rs, fs2)
  end.
