(** Model of mbtk/math/CMICalculator.py: conditional mutual information from the exact distribution
    of a Bayesian network, or from a dataset.
    Simplifications: floats are exact reals; [iterate]: the order in which Python iterates over a set
    of IDs inside create_partial_joint_pmf. *)
From Coq Require Import Reals.
From Verif Require Import Base AD_Model Key_Model PMF_Model GTest_Model BN_Model.
Open Scope nat_scope.

(** make_pmfs_from_source_bn (CMICalculator.py:53-72) *)
Definition make_pmfs_from_source_bn (iterate : list Z -> list Z) (fuel : nat) (b : bn) (X Y : nat) (Zl : list nat)
  : res (cpmf * cpmf * cpmf * pmf) :=
  match Zl with
  | [] =>
    PXY <- create_partial_joint_pmf iterate fuel b [X; Y] ;;
    PX <- sum_over PXY (Z.of_nat Y) ;;
    PY <- sum_over PXY (Z.of_nat X) ;;
    Ok (omega_cpmf PXY, omega_cpmf PX, omega_cpmf PY, omega_pmf)
  | _ =>
    PXYZ <- create_partial_joint_pmf iterate fuel b ([X; Y] ++ Zl) ;;
    PXZ <- sum_over PXYZ (Z.of_nat Y) ;;
    PYZ <- sum_over PXYZ (Z.of_nat X) ;;
    PZ <- sum_over PXZ (Z.of_nat X) ;;
    CXY <- condition_on PXYZ PZ ;;
    CX <- condition_on PXZ PZ ;;
    CY <- condition_on PYZ PZ ;;
    Ok (CXY, CX, CY, PZ)
  end.
(** make_pmfs_from_datasetmatrix and load_variables (75-112) *)
Definition make_pmfs_from_datasetmatrix (D : dataset) (X Y : nat) (Zl : list nat) : res (cpmf * cpmf * cpmf * pmf) :=
  VX <- get_variable D X ;; VY <- get_variable D Y ;;
  match Zl with
  | [] =>
    XY <- joint_variables [Simple VX; Simple VY] ;; PXY <- new_pmf XY ;;
    PX <- new_pmf (Simple VX) ;; PY <- new_pmf (Simple VY) ;;
    Ok (omega_cpmf PXY, omega_cpmf PX, omega_cpmf PY, omega_pmf)
  | _ =>
    VZ <- get_variables D Zl ;;
    XYZ <- joint_variables [Simple VX; Simple VY; VZ] ;; PXYZ <- new_pmf XYZ ;;
    XZ <- joint_variables [Simple VX; VZ] ;; PXZ <- new_pmf XZ ;;
    YZ <- joint_variables [Simple VY; VZ] ;; PYZ <- new_pmf YZ ;;
    PZ <- new_pmf VZ ;;
    CX <- condition_on PXZ PZ ;; CY <- condition_on PYZ PZ ;; CXY <- condition_on PXYZ PZ ;;
    Ok (CXY, CX, CY, PZ)
  end.
(** compute (CMICalculator.py:29-50), for the two values of `pmf_source`; [Zl]: list(Z) *)
Definition cmi_of_tables (r : res (cpmf * cpmf * cpmf * pmf)) : res R :=
  '(CXY, CX, CY, PZ) <- r ;; conditional_mutual_information CXY CX CY PZ BaseE.
Definition compute_from_bn iterate fuel b X Y Zl : res R := cmi_of_tables (make_pmfs_from_source_bn iterate fuel b X Y Zl).
(** compute with pmf_source 'datasetmatrix' (CMICalculator.py:29-50, 75-101) *)
Definition compute_from_dataset D X Y Zl : res R := cmi_of_tables (make_pmfs_from_datasetmatrix D X Y Zl).
