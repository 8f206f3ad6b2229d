(** The calculators of degrees of freedom as objects of their own: any sequence of calls of their
    public methods (mbtk/math/DoFCalculators.py), not only the sequence that a G-test makes
    (GTest_Model.v).

    Simplifications: those of GTest_Model.v; a table that is handed over is a fresh object (the
    zeros that a calculator removes from it in place are removed here in the calculator's copy);
    the attributes that no calculation reads (X, Y, Z, PrXYcZ, PrXYZ, PrXZ, PrYZ) are left out. *)
From Coq Require Import Reals.
From Verif Require Import Base AD_Model Key_Model PMF_Model MB_Model GTest_Model.
Open Scope Z_scope.

(** the calculator (DoFCalculators.py:7-25, 84-87, 117-130): its class, the attributes PrXcZ, PrYcZ
    and PrZ, the cache *)
Record calc := { k_kind : dof_kind; k_PrXcZ : option cpmf; k_PrYcZ : option cpmf; k_PrZ : option pmf; k_cache : dcache }.
(** the public methods [DoFCalculators.py:43-75, 90, 133, 147]; the tables of set_context_pmfs are those
    of XYZ, XZ, YZ and Z, each possibly None *)
Inductive call :=
| Reset
| SetVariables (X Y : nat) (Z : list nat)
| SetCPMFs (PrXYcZ PrXcZ PrYcZ : option cpmf) (PrZ : option pmf)
| SetPMFs (PrXYZ PrXZ PrYZ PrZ : option pmf)
| Calculate (X Y : nat) (Z : list nat).

(** the constructor (DoFCalculators.py:7-25, 84-87, 117-130) without a file at the load path *)
Definition new_calc (kind : dof_kind) : calc := {| k_kind := kind; k_PrXcZ := None; k_PrYcZ := None; k_PrZ := None; k_cache := [] |}.
(** attributes change [DoFCalculators.py:43-55, 65-75] *)
Definition with_context (o : calc) (CX CY : option cpmf) (PZ : option pmf) : calc :=
  {| k_kind := k_kind o; k_PrXcZ := CX; k_PrYcZ := CY; k_PrZ := PZ; k_cache := k_cache o |}.
(** the cache changes (DoFCalculators.py:181) *)
Definition with_cache (o : calc) (c : dcache) : calc :=
  {| k_kind := k_kind o; k_PrXcZ := k_PrXcZ o; k_PrYcZ := k_PrYcZ o; k_PrZ := k_PrZ o; k_cache := c |}.
(** CachedStructuralDoF.set_context_pmfs (DoFCalculators.py:147-161): the tables in turn; an exception
    leaves what the earlier ones added *)
Fixpoint cache_all (c : dcache) (Ps : list (option pmf)) : dcache * option pyerr :=
  match Ps with
  | [] => (c, None)
  | None :: Ps' => cache_all c Ps'
  | Some P :: Ps' => match cache_DoFs c P with Ok (c', _) => cache_all c' Ps' | Err e => (c, Some e) end
  end.
(** StructuralDoF.calculate_DoF (DoFCalculators.py:90-111): None has no `items`, and no `given` once
    a value of Z with a positive probability is met *)
Definition structural_calc (o : calc) : calc * res (option Z) :=
  match k_PrZ o with
  | None => (o, Err AttributeError)
  | Some PZ =>
    if forallb (fun zp => is_zero (snd zp)) (probabilities PZ) then (o, Ok (Some 1)) else
    match k_PrXcZ o, k_PrYcZ o with
    | Some CX, Some CY => let '(d, CX', CY') := structural_DoF CX CY PZ in (with_context o (Some CX') (Some CY') (Some PZ), Ok (Some d))
    | _, _ => (o, Err AttributeError)
    end
  end.
(** one call [DoFCalculators.py:28-75, 90-111, 133-161] *)
Definition step (D : dataset) (o : calc) (a : call) : calc * res (option Z) :=
  match a with
  | Reset => (with_context o None None None, Ok None)
  | SetVariables _ _ _ => (o, Ok None)
  | SetCPMFs _ CX CY PZ => (with_context o CX CY PZ, Ok None)
  | SetPMFs PXYZ PXZ PYZ PZ =>
    match k_kind o with
    | CachedStructuralDoF =>
      let '(c, e) := cache_all (k_cache o) [PXYZ; PXZ; PYZ; PZ] in
      (with_cache o c, match e with None => Ok None | Some e => Err e end)
    | _ => (with_context o (k_PrXcZ o) (k_PrYcZ o) PZ, Ok None)
    end
  | Calculate X Y Z =>
    match k_kind o with
    | UnadjustedDoF => (o, d <- unadjusted_DoF D X Y Z ;; Ok (Some d))
    | StructuralDoF => structural_calc o
    | CachedStructuralDoF => (o, d <- cached_DoF (k_cache o) X Y Z ;; Ok (Some d))
    end
  end.
(** calls one after the other; an exception does not end the object [DoFCalculators.py:28-75] *)
Fixpoint run (D : dataset) (o : calc) (calls : list call) : calc :=
  match calls with [] => o | a :: calls' => run D (fst (step D o a)) calls' end.
