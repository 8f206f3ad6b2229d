(** The feature-selection algorithms with the G-test objects as their CI test, and with the
    data-based conditional mutual information as IAMB's heuristic: what the constructors of
    AlgorithmIPCMB (ipcmb.py:17-39) and AlgorithmIAMB (iamb.py:18-42) put together from
    parameters['ci_test_class'] and parameters['correlation_heuristic_class']. *)
From Coq Require Import Reals.
From Verif Require Import Base AD_Model Key_Model PMF_Model GTest_Model BN_Model CMI_Model.
Open Scope nat_scope.

(** conditionally_independent as the algorithms see it (G_test__unoptimized.py:45-62): an answer, or
    the exception InsufficientSamplesForCITest, which they catch (ipcmb.py:139, iamb.py:91) *)
Definition gtest_ci (D : dataset) (p : params) (im : impl) (kind : dof_kind) (st : state) (X Y : nat) (Zl : list nat) : res bool * state :=
  match conditionally_independent D p im kind st X Y Zl with
  | Ok (Verdict b, st') => (Ok b, st')
  | Ok (RaisesInsufficientSamples, st') => (Err InsufficientSamples, st')
  | Err e => (Err e, st)
  end.
(** CMICalculator.compute with 'datasetmatrix' as the source (CMICalculator.py:29-38): it keeps no
    state that the CI test could see *)
Definition cmi_heuristic {St : Type} (D : dataset) (st : St) (X Y : nat) (Zl : list nat) : res R * St :=
  (compute_from_dataset D X Y Zl, st).
(** `>` on these values [iamb.py:74-99] *)
Definition real_gt (a b : R) : bool := if Rlt_dec b a then true else false.
