(** What it means for a PMF object to be the probability table of a tuple of variables. *)
From Coq Require Import Reals.
From Verif Require Import Base Key_Model Key_Spec PMF_Model PMF_Spec Prob_Spec.
Open Scope R_scope.

(** P is the table of the variables [ids] whose joint value in outcome [a] is [T a]. *)
Record is_table {A} (S : space A) (ids : list Z) (T : A -> list Z) (P : pmf) : Prop := {
  table_ids : variableIDs P = ids;
  table_len : forall a, In a (outcomes S) -> length (T a) = length ids;
  table_dist : distribution S T (probabilities P);
  table_keys : plain_keys (probabilities P) /\ forall k r, In (k, r) (probabilities P) -> length (leaves k) = length ids
}.
