(** Model of mbtk/math/CITestResult.py: how a result is filled in by the G-tests, how the tested
    variables are written, and how two results are compared.

    Simplifications: floats are reals or nan; the dictionaries of parameters are {} or {'DoF': d};
    timing, extra_info and the rendering of a result are left out (none of them is compared). *)
From Coq Require Import Reals String.
From Verif Require Import Base Matrix_Model Sources_Model GTest_Model.
Open Scope Z_scope.
Set Warnings "-abstract-large-number".

(** ** get_variable_representation (CITestResult.py:131-169; the same code in HeuristicResult.py:42-75) *)
(** what may be passed as X, Y or Z: None, an Omega, a Variable with an ID, JointVariables (the IDs of
    its variables), an int, a list or set (its elements as iterated) of ints, or another object (its str()) [CITestResult.py:131-165] *)
Inductive variable_ref :=
| RNone | ROmega | RVariable (ID : Z) | RJoint (IDs : list Z) | RInt (i : Z) | RList (l : list Z) | ROther (str : text).
(** CITestResult.py:139, 143, 152, 158 *)
Definition Omega_sign : text := [937%nat].
(** CITestResult.py:133 *)
Definition empty_sign : text := [8709%nat].
(** CITestResult.py:149 *)
Definition unnamed : text := [117; 110; 110; 97; 109; 101; 100]%nat.
(** str() of an int [CITestResult.py:145, 154, 161] *)
Definition str_int (i : Z) : text := (if i <? 0 then [45%nat] else []) ++ digits (Nat.to_uint (Z.abs_nat i)).
(** ', '.join(...) [CITestResult.py:169] *)
Fixpoint join_comma (l : list text) : text :=
  match l with [] => [] | [t] => t | t :: l' => t ++ [44; 32]%nat ++ join_comma l' end.
(** lines 156-163 and get_multiple_variables_representation (168-169) *)
Definition represent_list (l : list Z) : text :=
  match l with [] => Omega_sign | [i] => str_int i | _ => [123%nat] ++ join_comma (map str_int l) ++ [125%nat] end.
(** get_variable_representation (CITestResult.py:131-165) *)
Definition represent (v : variable_ref) : text :=
  match v with
  | RNone => empty_sign
  | RJoint IDs => represent_list IDs
  | ROmega => Omega_sign
  | RVariable ID => if ID =? -1024 then Omega_sign else str_int ID
  | RInt i => if i =? -1 then unnamed else if i =? -1024 then Omega_sign else str_int i
  | RList l => represent_list l
  | ROther str => str
  end.

(** ** The object (CITestResult.py:17-40) *)
Inductive float := Num (x : R) | NaN.
(** X, Y, Z: None, or the empty list that Z is at first, or a str [CITestResult.py:22-24, 116-119] *)
Inductive shown := ShownNone | ShownEmptyList | Shown (t : text).
(** the attributes of a CITestResult (CITestResult.py:17-40) *)
Record ci_result := { index : Z; independent : option bool; dependent : option bool; insufficient_samples : option bool;
  cX : shown; cY : shown; cZ : shown; statistic : option text; statistic_value : option float; statistic_parameters : option Z;
  test_distribution : option text; test_distribution_parameters : option Z; p_value : option float; c_significance : option float;
  computed_d_separation : option bool; tolerance_statistic : R; tolerance_p : R }.
(** CITestResult.py:35-36 *)
Definition tolerance : R := (1 / 100000000000)%R.
(** CITestResult.__init__ (CITestResult.py:17-40) *)
Definition fresh_result : ci_result :=
  {| index := -1; independent := Some false; dependent := Some false; insufficient_samples := None;
     cX := ShownNone; cY := ShownNone; cZ := ShownEmptyList; statistic := None; statistic_value := None; statistic_parameters := None;
     test_distribution := None; test_distribution_parameters := None; p_value := None; c_significance := None;
     computed_d_separation := None; tolerance_statistic := tolerance; tolerance_p := tolerance |}.
(** set_independent (93-97) *)
Definition set_independent (b : bool) (s : float) (c : ci_result) : ci_result :=
  {| index := index c; independent := Some b; dependent := Some (negb b); insufficient_samples := None;
     cX := cX c; cY := cY c; cZ := cZ c; statistic := statistic c; statistic_value := statistic_value c; statistic_parameters := statistic_parameters c;
     test_distribution := test_distribution c; test_distribution_parameters := test_distribution_parameters c; p_value := p_value c; c_significance := Some s;
     computed_d_separation := computed_d_separation c; tolerance_statistic := tolerance_statistic c; tolerance_p := tolerance_p c |}.
(** set_dependent (100-104) *)
Definition set_dependent (b : bool) (s : float) (c : ci_result) : ci_result := set_independent (negb b) s c.
(** set_insufficient_samples (107-113) *)
Definition set_insufficient_samples (c : ci_result) : ci_result :=
  {| index := index c; independent := None; dependent := None; insufficient_samples := Some true;
     cX := cX c; cY := cY c; cZ := cZ c; statistic := statistic c; statistic_value := Some (Num (-1)); statistic_parameters := statistic_parameters c;
     test_distribution := test_distribution c; test_distribution_parameters := test_distribution_parameters c; p_value := Some (Num (-1)); c_significance := None;
     computed_d_separation := computed_d_separation c; tolerance_statistic := tolerance_statistic c; tolerance_p := tolerance_p c |}.
(** set_variables (116-119) *)
Definition set_variables (X Y Z : variable_ref) (c : ci_result) : ci_result :=
  {| index := index c; independent := independent c; dependent := dependent c; insufficient_samples := insufficient_samples c;
     cX := Shown (represent X); cY := Shown (represent Y); cZ := Shown (represent Z); statistic := statistic c; statistic_value := statistic_value c; statistic_parameters := statistic_parameters c;
     test_distribution := test_distribution c; test_distribution_parameters := test_distribution_parameters c; p_value := p_value c; c_significance := c_significance c;
     computed_d_separation := computed_d_separation c; tolerance_statistic := tolerance_statistic c; tolerance_p := tolerance_p c |}.
(** set_statistic and set_distribution (172-181) *)
Definition set_statistic (name : text) (v : float) (params : option Z) (c : ci_result) : ci_result :=
  {| index := index c; independent := independent c; dependent := dependent c; insufficient_samples := insufficient_samples c;
     cX := cX c; cY := cY c; cZ := cZ c; statistic := Some name; statistic_value := Some v; statistic_parameters := params;
     test_distribution := test_distribution c; test_distribution_parameters := test_distribution_parameters c; p_value := p_value c; c_significance := c_significance c;
     computed_d_separation := computed_d_separation c; tolerance_statistic := tolerance_statistic c; tolerance_p := tolerance_p c |}.
(** set_distribution (CITestResult.py:178-181) *)
Definition set_distribution (name : text) (p : float) (params : option Z) (c : ci_result) : ci_result :=
  {| index := index c; independent := independent c; dependent := dependent c; insufficient_samples := insufficient_samples c;
     cX := cX c; cY := cY c; cZ := cZ c; statistic := statistic c; statistic_value := statistic_value c; statistic_parameters := statistic_parameters c;
     test_distribution := Some name; test_distribution_parameters := params; p_value := Some p; c_significance := c_significance c;
     computed_d_separation := computed_d_separation c; tolerance_statistic := tolerance_statistic c; tolerance_p := tolerance_p c |}.
(** result.index = ..., result.computed_d_separation = ... [G_test__unoptimized.py:65-134, where result.index is set] *)
Definition set_index (i : Z) (c : ci_result) : ci_result :=
  {| index := i; independent := independent c; dependent := dependent c; insufficient_samples := insufficient_samples c;
     cX := cX c; cY := cY c; cZ := cZ c; statistic := statistic c; statistic_value := statistic_value c; statistic_parameters := statistic_parameters c;
     test_distribution := test_distribution c; test_distribution_parameters := test_distribution_parameters c; p_value := p_value c; c_significance := c_significance c;
     computed_d_separation := computed_d_separation c; tolerance_statistic := tolerance_statistic c; tolerance_p := tolerance_p c |}.
(** G_test__unoptimized.py:50-51 *)
Definition set_d_separation (d : option bool) (c : ci_result) : ci_result :=
  {| index := index c; independent := independent c; dependent := dependent c; insufficient_samples := insufficient_samples c;
     cX := cX c; cY := cY c; cZ := cZ c; statistic := statistic c; statistic_value := statistic_value c; statistic_parameters := statistic_parameters c;
     test_distribution := test_distribution c; test_distribution_parameters := test_distribution_parameters c; p_value := p_value c; c_significance := c_significance c;
     computed_d_separation := d; tolerance_statistic := tolerance_statistic c; tolerance_p := tolerance_p c |}.
(** assignment to the attributes of CITestResult.py:35-36 *)
Definition set_tolerances (s p : R) (c : ci_result) : ci_result :=
  {| index := index c; independent := independent c; dependent := dependent c; insufficient_samples := insufficient_samples c;
     cX := cX c; cY := cY c; cZ := cZ c; statistic := statistic c; statistic_value := statistic_value c; statistic_parameters := statistic_parameters c;
     test_distribution := test_distribution c; test_distribution_parameters := test_distribution_parameters c; p_value := p_value c; c_significance := c_significance c;
     computed_d_separation := computed_d_separation c; tolerance_statistic := s; tolerance_p := p |}.

(** the setters of the verdict; accurate (184-188): None without the answer of a source network, else
    whether the two agree (`None == True` is False) *)
Inductive verdict := SetIndependent (b : bool) (s : float) | SetDependent (b : bool) (s : float) | SetInsufficient.
(** one of the three setters (CITestResult.py:93-113) *)
Definition set_verdict (c : ci_result) (v : verdict) : ci_result :=
  match v with SetIndependent b s => set_independent b s c | SetDependent b s => set_dependent b s c | SetInsufficient => set_insufficient_samples c end.
(** accurate (CITestResult.py:184-188) *)
Definition accurate (c : ci_result) : option bool :=
  match computed_d_separation c with
  | None => None
  | Some d => Some (match independent c with Some i => Bool.eqb i d | None => false end)
  end.

(** ** How the G-tests fill it in *)
(** The variables that are passed to set_variables: the unoptimized test passes the variables it has
    loaded (G_test__unoptimized.py:111, 129 and load_variables 150-158; without the parameter 'omega'
    an empty Z is None), the others the numbers of the columns (G_test__with_AD_tree.py:92, 110;
    G_test__with_dcMI.py:67, 80) *)
Definition passed_column (im : impl) (c : nat) : variable_ref := match im with Plain => RVariable (Z.of_nat c) | _ => RInt (Z.of_nat c) end.
(** the argument Z of set_variables (G_test__unoptimized.py:111, 129, 150-158; G_test__with_AD_tree.py:92, 110; G_test__with_dcMI.py:67, 80) *)
Definition passed_Z (im : impl) (omega : bool) (Z : list nat) : variable_ref :=
  match im with
  | Plain => match Z with
             | [] => if omega then ROmega else RNone
             | [c] => RVariable (Z.of_nat c)
             | _ => RJoint (map Z.of_nat Z)
             end
  | _ => RList (map Z.of_nat Z)
  end.
(** the name of the statistic (G_test__unoptimized.py:130) *)
Definition letter_G : text := [71%nat].
(** the name of the distribution (G_test__unoptimized.py:131) *)
Definition chi2_name : text := [99; 104; 105; 50]%nat.
(** G_test__unoptimized.py:107-132 (and the same lines of the other two), then 50-51 with
    [dsep] the answer of the source network, if there is one *)
Definition report (im : impl) (omega : bool) (p : params) (dsep : option bool) (r : result) : ci_result :=
  let vars := set_variables (passed_column im (r_X r)) (passed_column im (r_Y r)) (passed_Z im omega (r_Z r)) in
  set_d_separation dsep
    match r_independent r with
    | None => vars (set_insufficient_samples (set_index (r_index r) fresh_result))
    | Some b => set_distribution chi2_name (Num (r_p r)) (Some (r_DoF r)) (set_statistic letter_G (Num (r_G r)) None
                  (vars (set_independent b (Num (significance p)) (set_index (r_index r) fresh_result))))
    end.

(** ** == (CITestResult.py:43-59) *)
Definition float_eq (a b : float) : bool := match a, b with Num x, Num y => if Req_EM_T x y then true else false | _, _ => false end.
(** == of values that may be None (CITestResult.py:43-59) *)
Definition opt_eq {A} (eq : A -> A -> bool) (a b : option A) : bool :=
  match a, b with None, None => true | Some x, Some y => eq x y | _, _ => false end.
(** == of strings (CITestResult.py:48-51, 54) *)
Definition text_eq (a b : text) : bool := if list_eq_dec Nat.eq_dec a b then true else false.
(** == of X, Y, Z (CITestResult.py:48-50) *)
Definition shown_eq (a b : shown) : bool :=
  match a, b with ShownNone, ShownNone => true | ShownEmptyList, ShownEmptyList => true | Shown s, Shown t => text_eq s t | _, _ => false end.
(** abs(a - b) <= tol and abs(a - b) > tol: a TypeError with None; a comparison with nan is False [CITestResult.py:52, 56] *)
Definition within (tol : R) (a b : option float) : res bool :=
  match a, b with
  | Some (Num x), Some (Num y) => Ok (if Rle_dec (Rabs (x - y)) tol then true else false)
  | Some _, Some _ => Ok false
  | _, _ => Err TypeError
  end.
(** abs(a - b) > tol (CITestResult.py:77, 85) *)
Definition beyond (tol : R) (a b : option float) : res bool :=
  match a, b with
  | Some (Num x), Some (Num y) => Ok (if Rgt_dec (Rabs (x - y)) tol then true else false)
  | Some _, Some _ => Ok false
  | _, _ => Err TypeError
  end.
(** the operator `and`, which stops at the first False (CITestResult.py:44-59) *)
Definition and_then (a b : res bool) : res bool := match a with Ok true => b | r => r end.
(** __eq__ (CITestResult.py:43-59) *)
Definition ci_eq (a b : ci_result) : res bool :=
  and_then (Ok (opt_eq Bool.eqb (independent a) (independent b)))
 (and_then (Ok (opt_eq Bool.eqb (dependent a) (dependent b)))
 (and_then (Ok (opt_eq Bool.eqb (insufficient_samples a) (insufficient_samples b)))
 (and_then (Ok (shown_eq (cX a) (cX b)))
 (and_then (Ok (shown_eq (cY a) (cY b)))
 (and_then (Ok (shown_eq (cZ a) (cZ b)))
 (and_then (Ok (opt_eq text_eq (statistic a) (statistic b)))
 (and_then (within (tolerance_statistic a) (statistic_value a) (statistic_value b))
 (and_then (Ok (opt_eq Z.eqb (statistic_parameters a) (statistic_parameters b)))
 (and_then (Ok (opt_eq text_eq (test_distribution a) (test_distribution b)))
 (and_then (Ok (opt_eq Z.eqb (test_distribution_parameters a) (test_distribution_parameters b)))
 (and_then (within (tolerance_p a) (p_value a) (p_value b))
 (and_then (Ok (opt_eq float_eq (c_significance a) (c_significance b)))
           (Ok (opt_eq Bool.eqb (computed_d_separation a) (computed_d_separation b))))))))))))))).
(** ** diff (62-90): the name of the first field that differs, or None *)
Inductive field := FInsufficient | FIndependent | FDependent | FX | FY | FZ | FStatistic | FStatisticValue | FStatisticParameters
  | FTestDistribution | FTestDistributionParameters | FPValue | FSignificance | FDSeparation.
(** one `if ...: return` of diff (CITestResult.py:62-90) *)
Definition or_report (differs : res bool) (f : field) (rest : res (option field)) : res (option field) :=
  match differs with Ok true => Ok (Some f) | Ok false => rest | Err e => Err e end.
(** diff (CITestResult.py:62-90) *)
Definition ci_diff (a b : ci_result) : res (option field) :=
  or_report (Ok (negb (opt_eq Bool.eqb (insufficient_samples a) (insufficient_samples b)))) FInsufficient
 (or_report (Ok (negb (opt_eq Bool.eqb (independent a) (independent b)))) FIndependent
 (or_report (Ok (negb (opt_eq Bool.eqb (dependent a) (dependent b)))) FDependent
 (or_report (Ok (negb (shown_eq (cX a) (cX b)))) FX
 (or_report (Ok (negb (shown_eq (cY a) (cY b)))) FY
 (or_report (Ok (negb (shown_eq (cZ a) (cZ b)))) FZ
 (or_report (Ok (negb (opt_eq text_eq (statistic a) (statistic b)))) FStatistic
 (or_report (beyond (tolerance_statistic a) (statistic_value a) (statistic_value b)) FStatisticValue
 (or_report (Ok (negb (opt_eq Z.eqb (statistic_parameters a) (statistic_parameters b)))) FStatisticParameters
 (or_report (Ok (negb (opt_eq text_eq (test_distribution a) (test_distribution b)))) FTestDistribution
 (or_report (Ok (negb (opt_eq Z.eqb (test_distribution_parameters a) (test_distribution_parameters b)))) FTestDistributionParameters
 (or_report (beyond (tolerance_p a) (p_value a) (p_value b)) FPValue
 (or_report (Ok (negb (opt_eq float_eq (c_significance a) (c_significance b)))) FSignificance
 (or_report (Ok (negb (opt_eq Bool.eqb (computed_d_separation a) (computed_d_separation b)))) FDSeparation
            (Ok None)))))))))))))).
