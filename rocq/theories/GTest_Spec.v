(** What a G-test is to report about a data table, in terms of the rows alone. *)
From Coq Require Import Reals.
From Verif Require Import Base AD_Model AD_Spec Prob_Spec GTest_Model.
Open Scope Z_scope.

(** the values that a row shows in some columns *)
Definition proj (cols : list nat) (row : list Z) : list Z := map (fun c => nth c row 0) cols.
(** every row equally likely *)
Definition data_space (D : dataset) : space (list Z) := uniform (rows D).

(** the G statistic: 2 N I(X;Y|Z), information in nats *)
Definition G_statistic (D : dataset) (X Y : nat) (Z : list nat) : R :=
  (2 * INR (length (rows D)) * cmi (data_space D) (proj [X]) (proj [Y]) (proj Z))%R.

(** the distinct values shown by some rows *)
Definition distinct (cols : list nat) (rs : list (list Z)) : list (list Z) := nodup (list_eq_dec Z.eq_dec) (map (proj cols) rs).
(** structural degrees of freedom: for each observed value z of Z, the observed values of X and Y
    among the rows with Z = z *)
Definition structural_dof (D : dataset) (X Y : nat) (Z : list nat) : BinNums.Z :=
  let s := zsum (map (fun z => let rs := filter (fun row => eqv (proj Z row) z) (rows D) in
                    (Z.of_nat (length (distinct [X] rs)) - 1) * (Z.of_nat (length (distinct [Y] rs)) - 1))
                 (distinct Z (rows D))) in
  if s =? 0 then 1 else s.
(** from the numbers of declared values of the columns *)
Definition declared (D : dataset) (c : nat) : Z := match colvals D c with Some vs => Z.of_nat (length vs) | None => 0 end.
Definition unadjusted_dof (D : dataset) (X Y : nat) (Z : list nat) : BinNums.Z :=
  let s := (declared D X - 1) * (declared D Y - 1) * fold_right (fun c acc => declared D c * acc) 1 Z in
  if s =? 0 then 1 else s.
Definition dof_for (D : dataset) (kind : dof_kind) (X Y : nat) (Z : list nat) : BinNums.Z :=
  match kind with UnadjustedDoF => unadjusted_dof D X Y Z | _ => structural_dof D X Y Z end.

(** enough samples: the custom criterion if there is one, else N > 5 DoF *)
Definition enough (D : dataset) (p : params) (dof : Z) : bool :=
  match criterion p with None => 5 * dof <? Z.of_nat (length (rows D)) | Some f => f dof end.
(** the result that the [index]-th test has to report *)
Definition expected_result (D : dataset) (p : params) (kind : dof_kind) (index : Z) (X Y : nat) (Z : list nat) (r : result) : Prop :=
  r_index r = index /\ r_X r = X /\ r_Y r = Y /\ r_Z r = Z /\ r_DoF r = dof_for D kind X Y Z /\
  (enough D p (dof_for D kind X Y Z) = true ->
     r_G r = G_statistic D X Y Z /\ r_p r = chi2_cdf p (G_statistic D X Y Z) (dof_for D kind X Y Z) /\
     exists b, r_independent r = Some b /\ (b = true <-> (chi2_cdf p (G_statistic D X Y Z) (dof_for D kind X Y Z) < significance p)%R)) /\
  (enough D p (dof_for D kind X Y Z) = false -> r_independent r = None /\ r_G r = (-1)%R /\ r_p r = (-1)%R).
(** ... and what the caller sees *)
Definition expected_outcome (D : dataset) (p : params) (kind : dof_kind) (t : test) (o : outcome) : Prop :=
  let '(X, Y, Z) := t in
  match o with
  | RaisesInsufficientSamples => enough D p (dof_for D kind X Y Z) = false
  | Verdict b => enough D p (dof_for D kind X Y Z) = true /\
                 (b = true <-> (chi2_cdf p (G_statistic D X Y Z) (dof_for D kind X Y Z) < significance p)%R)
  end.

(** a test of distinct existing columns *)
Definition wf_test (D : dataset) (t : test) : Prop :=
  let '(X, Y, Z) := t in NoDup (X :: Y :: Z) /\ forall c, In c (X :: Y :: Z) -> (c < ncols D)%nat.
(** what the dataset must satisfy for an implementation to be usable *)
Definition wf_for (D : dataset) (im : impl) : Prop :=
  wf_dataset D /\ rows D <> [] /\
  match im with WithADTree _ => no_minus_one D /\ threshold_ok D | _ => True end.
(** dcMI accepts only calculators that need no conditional tables *)
Definition compatible (im : impl) (kind : dof_kind) : Prop := match im with WithDcMI => kind <> StructuralDoF | _ => True end.
(** Python iterates over a set in some order, each element once *)
Definition order_ok (p : params) : Prop := forall l, NoDup (set_order p l) /\ forall x, In x (set_order p l) <-> In x l.

(** the log [rs] of the tests [tests], the indices starting after [n] *)
Definition logged (D : dataset) (p : params) (kind : dof_kind) (n : Z) (tests : list test) (rs : list result) : Prop :=
  length rs = length tests /\ forall i X Y Z r, nth_error tests i = Some (X, Y, Z) -> nth_error rs i = Some r ->
    expected_result D p kind (n + Z.of_nat i + 1) X Y Z r.
(** nothing saved yet *)
Definition no_files : disk := {| f_results := Absent; f_dofs := Absent; f_jht := Absent |}.
(** every saved value is the joint entropy of the columns that form its key *)
Definition exact_entropies (D : dataset) (j : jht_table) : Prop :=
  forall cols H, assoc MB_Model.list_eqb (MB_Model.frozenset cols) j = Some H -> H = entropy (data_space D) (proj cols).
(** joint entropies that a test needs: of XYZ, XZ, YZ and, if Z is not empty, of Z *)
Definition entropies_needed (t : test) : Z := match snd t with [] => 3 | _ => 4 end.
