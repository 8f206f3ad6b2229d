(** What the text of a result is to tell: numbers in decimal notation, names that can be found again,
    and the story of a result. *)
From Coq Require Import Reals.
From Verif Require Import Base Matrix_Model Sources_Model Select_Properties CIResult_Model.
Open Scope nat_scope.
Set Warnings "-abstract-large-number".

(** [t] is a number in decimal notation with [d] digits after the point, and its value is [v] *)
Definition writes (d : nat) (t : text) (v : R) : Prop :=
  exists (negative : bool) (whole frac : text) (A B : nat),
    t = ((if negative then [45] else []) ++ whole ++ [46] ++ frac)%list /\ denotes whole A /\ denotes frac B /\ length frac = d /\
    v = ((if negative then -1 else 1) * (INR A + INR B / 10 ^ d))%R.
(** what is written for a float: the word nan, or a number at most half a unit of the last digit away *)
Definition approximates (d : nat) (f : float) (t : text) : Prop :=
  match f with
  | NaN => t = [110; 97; 110]
  | Num x => exists v, writes d t v /\ (Rabs (v - x) <= / 2 / 10 ^ d)%R
  end.
(** two floats that print alike: both nan, or at most one unit of the last digit apart *)
Definition near (d : nat) (a b : option float) : Prop :=
  match a, b with
  | Some (Num x), Some (Num y) => (Rabs (x - y) <= / 10 ^ d)%R
  | Some NaN, Some NaN => True
  | None, None => True
  | _, _ => False
  end.

(** a name without line break, escape, ':', '=', '|', the two signs of a line, or spaces at its ends *)
Definition clean (t : text) : Prop :=
  (forall c, In c t -> c <> 10 /\ c <> 27 /\ c <> 58 /\ c <> 61 /\ c <> 124 /\ c <> 8869 /\ c <> 916) /\
  (forall u, t <> 32 :: u) /\ (forall u, t <> (u ++ [32])%list).
(** the variables are given and their names are clean; so are the names of the statistic and the distribution, if given *)
Definition well_named (c : ci_result) : Prop :=
  (exists X Y Zt, cX c = Shown X /\ cY c = Shown Y /\ cZ c = Shown Zt /\ clean X /\ clean Y /\ clean Zt) /\
  (forall t, statistic c = Some t -> clean t) /\ (forall t, test_distribution c = Some t -> clean t).
(** its significance, statistic and p-value are numbers (or nan) *)
Definition has_values (c : ci_result) : Prop := c_significance c <> None /\ statistic_value c <> None /\ p_value c <> None.

(** too few samples; independent *)
Definition too_few (c : ci_result) : Prop := insufficient_samples c = Some true.
Definition says_independent (c : ci_result) : Prop := independent c = Some true.
(** the answer of the source network is known, and it is the same, or it is another *)
Definition confirmed (c : ci_result) : Prop := exists d, computed_d_separation c = Some d /\ independent c = Some d.
Definition contradicted (c : ci_result) : Prop := exists d, computed_d_separation c = Some d /\ independent c <> Some d.

(** two results, with their durations, that tell the same story *)
Definition same_story (a : ci_result) (da : float) (b : ci_result) (db : float) : Prop :=
  index a = index b /\ cX a = cX b /\ cY a = cY b /\ cZ a = cZ b /\
  (too_few a <-> too_few b) /\ near 4 (Some da) (Some db) /\
  (~ too_few a ->
     (says_independent a <-> says_independent b) /\ (confirmed a <-> confirmed b) /\ (contradicted a <-> contradicted b) /\
     near 4 (c_significance a) (c_significance b) /\ near 6 (statistic_value a) (statistic_value b) /\ near 6 (p_value a) (p_value b)).
