(** What a calculator of degrees of freedom is to answer after any calls. *)
From Coq Require Import Reals.
From Verif Require Import Base AD_Model AD_Spec Key_Model PMF_Model MB_Model GTest_Model GTest_Spec DoFObj_Model.
Open Scope Z_scope.

(** the answer of calculate_DoF(X, Y, Z) on a new calculator of this class for the table [D], after
    some calls *)
Definition answer (D : dataset) (kind : dof_kind) (calls : list call) (X Y : nat) (Z : list nat) : res (option BinNums.Z) :=
  snd (step D (run D (new_calc kind) calls) (Calculate X Y Z)).
(** the tables in PrXcZ, PrYcZ and PrZ: those of the last set_context_cpmfs since the last reset, PrZ
    possibly replaced by a later set_context_pmfs *)
Fixpoint last_context (ctx : option cpmf * option cpmf * option pmf) (calls : list call) : option cpmf * option cpmf * option pmf :=
  match calls with
  | [] => ctx
  | Reset :: l => last_context (None, None, None) l
  | SetCPMFs _ CX CY PZ :: l => last_context (CX, CY, PZ) l
  | SetPMFs _ _ _ PZ :: l => last_context (fst (fst ctx), snd (fst ctx), PZ) l
  | _ :: l => last_context ctx l
  end.
(** all the tables ever handed to set_context_pmfs, in order *)
Definition offered (calls : list call) : list pmf :=
  flat_map (fun a => match a with
    | SetPMFs a b c d => flat_map (fun o => match o with Some P => [P] | None => [] end) [a; b; c; d]
    | _ => [] end) calls.
(** the table PMF(datasetmatrix.get_variables(cols)) of distinct columns of [D] *)
Definition table_of (D : dataset) (cols : list nat) (P : pmf) : Prop :=
  rows D <> [] /\ cols <> [] /\ NoDup cols /\ (forall c, In c cols -> (c < ncols D)%nat) /\
  exists v, get_variables D cols = Ok v /\ new_pmf v = Ok P.
Definition some_table (P : pmf) : Prop := exists D cols, table_of D cols P.
Definition same_columns (a b : list nat) : Prop := forall c, In c a <-> In c b.
(** a call that leaves the context of the calculator alone *)
Definition keeps_context (a : call) : Prop := match a with SetVariables _ _ _ | Calculate _ _ _ => True | _ => False end.
