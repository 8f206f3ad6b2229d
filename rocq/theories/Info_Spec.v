(** Logarithm bases; conditional probability tables. *)
From Coq Require Import Reals.
From Verif Require Import Base Key_Model Key_Spec PMF_Model Prob_Spec.
Open Scope R_scope.

(** the factor of a logarithm base: logb x = ln x * factor *)
Definition base_factor (b : log_base) : R :=
  match b with BaseE => 1 | Base2 => / ln 2 | Base10 => / ln 10 | BaseFloat c => / ln c | BaseOther => 0 end.
Definition base_valid (b : log_base) : Prop :=
  match b with BaseFloat c => 0 < c /\ c <> 1 | BaseOther => False | _ => True end.

(** the bases no logarithm is taken in, and the exception each raises *)
Definition invalid_base (b : log_base) (e : pyerr) : Prop :=
  match b with
  | BaseFloat c => (c <= 0 /\ e = ValueError) \/ (c = 1 /\ e = ZeroDivisionError)
  | BaseOther => e = AssertionError (* neither 'e', 2, 10 nor a float *)
  | _ => False
  end.

(** a CPMF holds the conditional distributions of X given Z *)
Definition cond_table {A} (S : space A) (X Z : A -> list BinNums.Z) (C : cpmf) : Prop :=
  forall z, let t := probabilities (given C [as_key z]) in
    (pr1 S Z z <> 0 -> conditional_distribution S X Z z t) /\ (pr1 S Z z = 0 -> t = []).
Definition cond_plain (C : cpmf) : Prop := forall z, plain_keys (probabilities (given C [as_key z])).

