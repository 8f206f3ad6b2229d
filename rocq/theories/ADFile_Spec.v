(** What processes that keep AD-trees in files are to report. *)
From Coq Require Import Reals.
From Verif Require Import Base AD_Model AD_Spec GTest_Model GTest_Spec Shared_Model ADFile_Model.
Open Scope Z_scope.

(** a process on the table [D] with a sensible threshold and tests of existing columns *)
Definition process_on (D : dataset) (p : process) : Prop :=
  pr_data p = D /\ order_ok (pr_params p) /\ pr_threshold p <= Z.of_nat (length (rows D)) /\ Forall (wf_test D) (pr_tests p).
(** a table that AD-trees handle *)
Definition table_ok (D : dataset) : Prop := wf_dataset D /\ rows D <> [] /\ no_minus_one D.
(** all the answers are those for the table [D] *)
Definition answers_for (D : dataset) (p : process) (r : report) : Prop :=
  exists os, r = Answers os /\ Forall2 (expected_outcome D (pr_params p) (pr_kind p)) (pr_tests p) os.
(** no tree was ever saved *)
Definition no_trees : files := fun _ => Absent.
(** the process is killed in the middle of a write to the path [k]: after one of its writes, or
    after three if it saves the tree twice *)
Definition may_tear (k : nat) (p : process) : Prop := pr_save p = Some k /\ (pr_writes p = 1 \/ pr_writes p = 3)%nat.
