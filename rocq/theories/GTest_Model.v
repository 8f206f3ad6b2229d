(** Model of the three G-tests (mbtk/math/G_test__unoptimized.py, G_test__with_AD_tree.py,
    G_test__with_dcMI.py), of the degrees-of-freedom calculators (mbtk/math/DoFCalculators.py) and
    of DatasetMatrix.get_variable / get_variables (DatasetMatrix.py:186-240).

    Simplifications: floats are exact reals; the chi-square CDF (scipy) is an arbitrary function;
    timing, garbage collection, debug output, `extra_info`, the textual rendering of results and
    the optional comparison with a source network (`computed_d_separation`) are left out; a
    G-test always has its dataset.  An exception other than InsufficientSamplesForCITest ends the
    history (the partially updated object is not modelled further). *)
From Coq Require Import Reals.
From Verif Require Import Base AD_Model AD_Query_Model Key_Model PMF_Model MB_Model.
Open Scope Z_scope.

(** the three classes: G_test__unoptimized.py:16, G_test__with_AD_tree.py:15, G_test__with_dcMI.py:11 *)
Inductive impl := Plain | WithADTree (dyn : bool) | WithDcMI.
(** the classes of DoFCalculators.py and their `requires_cpmfs` (10, 87, 119); `requires_pmfs` is
    True for all *)
Inductive dof_kind := UnadjustedDoF | StructuralDoF | CachedStructuralDoF.
(** DoFCalculators.py:7-25, 84-87, 117-130 *)
Definition requires_cpmfs (k : dof_kind) : bool := match k with StructuralDoF => true | _ => false end.

(** `parameters`: the CDF of the chi-square distribution, the significance, the optional custom
    sample criterion, and the order in which Python iterates over a set made from the given list
    of elements [G_test__unoptimized.py:19-42] *)
Record params := { chi2_cdf : R -> Z -> R; significance : R; criterion : option (Z -> bool); set_order : list nat -> list nat }.

(** CITestResult (CITestResult.py:7-46); [r_independent] None: insufficient samples *)
Record result := { r_index : Z; r_X : nat; r_Y : nat; r_Z : list nat; r_independent : option bool; r_G : R; r_p : R; r_DoF : Z }.
(** DoFs per pair of variables (DoFCalculators.py:184-211) *)
Definition pair_table := list ((nat * nat) * Z).
(** CachedStructuralDoF.DoFs_cache (DoFCalculators.py:117-130, 164-181) *)
Definition dcache := list (list nat * (list nat * pair_table)).
(** the joint entropies in JHT (G_test__with_dcMI.py:97-115) *)
Definition jht_table := list (list nat * R).
(** the G-test object; [jht_counters]: the entries 'reads' and 'misses' of the JHT dictionary [G_test__unoptimized.py:19-42, G_test__with_AD_tree.py:17-26, G_test__with_dcMI.py:13-38] *)
Record state := { ad_tree : option adnode; sample_size : Z;
  jht : jht_table; jht_counters : option (Z * Z); jht_reads : Z; jht_misses : Z;
  dof_cache : dcache; results : list result; ci_test_counter : Z }.

Section GTest.
  Variable D : dataset.

  (** ** Variables of the dataset [the instances of a column (DatasetMatrix.py:104-125)] *)
  Definition column (c : nat) : list Z := map (fun row => nth c row 0) (rows D).
  (** get_variable (DatasetMatrix.py:186-222): the instances are loaded lazily (an IndexError is
      raised then; here at once) *)
  Definition get_variable (c : nat) : res variable :=
    if (c <? ncols D)%nat then Ok {| vid := Z.of_nat c; insts := column c; array := true; lazy := true |} else Err IndexError.
  (** get_variables (DatasetMatrix.py:225-240) of a list; of a set: always JointVariables *)
  Definition get_variables_set (cs : list nat) : res var :=
    vs <- mapM get_variable cs ;; joint_variables (map Simple vs).
  (** get_variables (DatasetMatrix.py:225-240) *)
  Definition get_variables (cs : list nat) : res var :=
    match cs with [c] => v <- get_variable c ;; Ok (Simple v) | _ => get_variables_set cs end.

  (** ** DoF calculators [DoFCalculators.py:28-40, 90-111, 133-144] *)
  Definition at_least_one (DoF : Z) : Z := if DoF =? 0 then 1 else DoF.
  (** UnadjustedDoF.calculate_DoF (DoFCalculators.py:28-40) *)
  Definition value_count (c : nat) : res Z := vs <- of_option IndexError (colvals D c) ;; Ok (Z.of_nat (length vs)).
  (** UnadjustedDoF.calculate_DoF (DoFCalculators.py:28-40) *)
  Definition unadjusted_DoF (X Y : nat) (Z : list nat) : res BinNums.Z :=
    x <- value_count X ;; y <- value_count Y ;;
    z <- foldM (fun acc c => n <- value_count c ;; Ok (acc * n)) Z 1 ;;
    Ok (at_least_one ((x - 1) * (y - 1) * z)).

  (** in-place change of the table `C.given(z)` (a missing table is a fresh object) [DoFCalculators.py:90-111, PMF.py:260-266] *)
  Definition put_given (C : cpmf) (z : pyobj) (P : pmf) : cpmf :=
    match assoc pyobj_eqb (process_pmf_key [z]) C with
    | Some _ => assoc_set pyobj_eqb (process_pmf_key [z]) P C
    | None => C
    end.
  (** StructuralDoF.calculate_DoF (90-111): also removes the zeros from the tables it looks at *)
  Definition structural_step (acc : Z * cpmf * cpmf) (zp : pyobj * R) : Z * cpmf * cpmf :=
    let '(DoF, CX, CY) := acc in
    if is_zero (snd zp) then acc else
    let PX := remove_zeros (given CX [fst zp]) in
    let PY := remove_zeros (given CY [fst zp]) in
    (DoF + (Z.of_nat (length (probabilities PX)) - 1) * (Z.of_nat (length (probabilities PY)) - 1),
     put_given CX (fst zp) PX, put_given CY (fst zp) PY).
  (** StructuralDoF.calculate_DoF (DoFCalculators.py:90-111) *)
  Definition structural_DoF (CX CY : cpmf) (PZ : pmf) : Z * cpmf * cpmf :=
    let '(DoF, CX', CY') := fold_left structural_step (probabilities PZ) (0, CX, CY) in
    (at_least_one DoF, CX', CY').

  (** calculate_pairwise_DoFs (184-211) *)
  Definition py_add (x : pyobj) (s : list pyobj) : list pyobj := if existsb (pyobj_eqb x) s then s else s ++ [x].
  (** the parts of a joint key (DoFCalculators.py:184-211) *)
  Definition split_key (keysize ix iy : nat) (k : pyobj) : res (pyobj * pyobj * pyobj) :=
    x <- key_at k ix ;; y <- key_at k iy ;;
    z <- mapM (key_at k) (filter (fun iz => negb (iz =? ix)%nat && negb (iz =? iy)%nat)%bool (seq 0 keysize)) ;;
    Ok (x, y, PTup z).
  (** values of X and of Y seen with a value of Z (DoFCalculators.py:184-211) *)
  Definition group_step (d : list (pyobj * (list pyobj * list pyobj))) (xyz : pyobj * pyobj * pyobj) :=
    let '(x, y, z) := xyz in
    let '(xs, ys) := match assoc pyobj_eqb z d with Some s => s | None => ([], []) end in
    assoc_set pyobj_eqb z (py_add x xs, py_add y ys) d.
  (** the DoF for one pair of positions (DoFCalculators.py:184-211) *)
  Definition pair_DoF (P : pmf) (keysize ix iy : nat) : res Z :=
    t <- mapM (split_key keysize ix iy) (map fst (probabilities P)) ;;
    let d := fold_left group_step t [] in
    Ok (at_least_one (zsum (map (fun e => (Z.of_nat (length (fst (snd e))) - 1) * (Z.of_nat (length (snd (snd e))) - 1)) d))).
  (** == of two pairs (keys of the table of DoFCalculators.py:184-211) *)
  Definition pair_eqb (p q : nat * nat) : bool := ((fst p =? fst q)%nat && (snd p =? snd q)%nat)%bool.
  (** the pairs of positions (DoFCalculators.py:184-211) *)
  Definition index_pairs (keysize : nat) : list (nat * nat) :=
    flat_map (fun ix => map (fun iy => (ix, iy)) (seq (S ix) (keysize - S ix))) (seq 0 keysize).
  (** calculate_pairwise_DoFs (DoFCalculators.py:184-211) *)
  Definition pairwise_DoFs (P : pmf) (keysize : nat) : res pair_table :=
    foldM (fun t ij => v <- pair_DoF P keysize (fst ij) (snd ij) ;;
                       Ok (assoc_set pair_eqb ij v (assoc_set pair_eqb (snd ij, fst ij) v t)))
          (index_pairs keysize) [].
  (** cache_DoFs_for_pmf (164-181): removes the zeros of a table that it analyses *)
  Definition cache_DoFs (c : dcache) (P : pmf) : res (dcache * pmf) :=
    match variable_IDs P with
    | None => Ok (c, P)
    | Some ids =>
      if (length ids <=? 1)%nat then Ok (c, P) else
      let key := frozenset (map Z.to_nat ids) in
      match assoc list_eqb key c with
      | Some _ => Ok (c, P)
      | None =>
        let P' := remove_zeros P in
        t <- pairwise_DoFs P' (length ids) ;;
        Ok (assoc_set list_eqb key (map Z.to_nat ids, t) c, P')
      end
    end.
  (** set_context_pmfs (147-161; 67-71 of the base class only stores): the tables in order *)
  Fixpoint set_context_pmfs (kind : dof_kind) (c : dcache) (Ps : list pmf) : res (dcache * list pmf) :=
    match Ps with
    | [] => Ok (c, [])
    | P :: Ps' =>
      match kind with
      | CachedStructuralDoF =>
        '(c1, P1) <- cache_DoFs c P ;; '(c2, Ps2) <- set_context_pmfs kind c1 Ps' ;; Ok (c2, P1 :: Ps2)
      | _ => Ok (c, Ps)
      end
    end.
  (** list.index (DoFCalculators.py:133-144, 184-211) *)
  Fixpoint nat_index (x : nat) (l : list nat) : option nat :=
    match l with [] => None | y :: l' => if (x =? y)%nat then Some O else option_map S (nat_index x l') end.
  (** CachedStructuralDoF.calculate_DoF (133-144) *)
  Definition cached_DoF (c : dcache) (X Y : nat) (Z : list nat) : res BinNums.Z :=
    '(variables, t) <- of_option KeyError (assoc list_eqb (frozenset (X :: Y :: Z)) c) ;;
    ix <- of_option ValueError (nat_index X variables) ;;
    iy <- of_option ValueError (nat_index Y variables) ;;
    of_option KeyError (assoc pair_eqb (ix, iy) t).
  (** `DoF_calculator.calculate_DoF(X, Y, Z)` [DoFCalculators.py:28-40, 90-111, 133-144] *)
  Definition calculate_DoF (kind : dof_kind) (c : dcache) (X Y : nat) (Z : list nat) (CX CY : cpmf) (PZ : pmf)
    : res (BinNums.Z * cpmf * cpmf) :=
    match kind with
    | UnadjustedDoF => d <- unadjusted_DoF X Y Z ;; Ok (d, CX, CY)
    | StructuralDoF => Ok (structural_DoF CX CY PZ)
    | CachedStructuralDoF => d <- cached_DoF c X Y Z ;; Ok (d, CX, CY)
    end.

  Variable p : params.

  (** ** Decision (G_test__unoptimized.py:107-134, 142-147; the same code in the other two) *)
  Definition sufficient_samples (N DoF : Z) : bool := match criterion p with None => 5 * DoF <? N | Some f => f DoF end.
  (** G_test__unoptimized.py:107-134 *)
  Definition decide (N index : Z) (X Y : nat) (Z : list nat) (DoF : BinNums.Z) (G : res R) : res result :=
    if sufficient_samples N DoF then
      g <- G ;;
      let pv := chi2_cdf p g DoF in
      Ok {| r_index := index; r_X := X; r_Y := Y; r_Z := Z; r_independent := Some (if Rlt_dec pv (significance p) then true else false);
            r_G := g; r_p := pv; r_DoF := DoF |}
    else Ok {| r_index := index; r_X := X; r_Y := Y; r_Z := Z; r_independent := None; r_G := (-1)%R; r_p := (-1)%R; r_DoF := DoF |}.
  (** G_value from tables (G_test__unoptimized.py:137-139, G_test__with_AD_tree.py:119-121) *)
  Definition G_from_tables (N : Z) (CXY CX CY : cpmf) (PZ : pmf) : res R :=
    cMI <- conditional_mutual_information CXY CX CY PZ BaseE ;; Ok (2 * IZR N * cMI)%R.

  (** ** Tables of the unoptimized test (G_test__unoptimized.py:75-101) *)
  Definition plain_tables (kind : dof_kind) (c : dcache) (X Y : nat) (Z : list nat)
    : res (cpmf * cpmf * cpmf * pmf * dcache) :=
    VX <- get_variables [X] ;; VY <- get_variables [Y] ;;
    match Z with
    | [] =>
      XY <- joint_variables [VX; VY] ;;
      PXY <- new_pmf XY ;; PX <- new_pmf VX ;; PY <- new_pmf VY ;;
      '(c', Ps) <- set_context_pmfs kind c [PXY; PX; PY] ;;
      match Ps with
      | [PXY'; PX'; PY'] => Ok (omega_cpmf PXY', omega_cpmf PX', omega_cpmf PY', omega_pmf, c')
      | _ => Err RuntimeError
      end
    | _ =>
      VZ <- get_variables Z ;;
      XYZ <- joint_variables [VX; VY; VZ] ;; PXYZ <- new_pmf XYZ ;;
      XZ <- joint_variables [VX; VZ] ;; PXZ <- new_pmf XZ ;;
      YZ <- joint_variables [VY; VZ] ;; PYZ <- new_pmf YZ ;;
      PZ <- new_pmf VZ ;;
      CX <- condition_on PXZ PZ ;; CY <- condition_on PYZ PZ ;; CXY <- condition_on PXYZ PZ ;;
      '(c', Ps) <- set_context_pmfs kind c [PXYZ; PXZ; PYZ; PZ] ;;
      match Ps with
      | [_; _; _; PZ'] => Ok (CXY, CX, CY, PZ', c')
      | _ => Err RuntimeError
      end
    end.

  (** ** Tables of the test with AD-tree (G_test__with_AD_tree.py:124-214) *)
  (** ADTree.make_pmf (ADTree.py:80-92): `pmf.variable = JointVariablesIDs(variables)`, while
      `pmf.variableIDs` stays empty *)
  Definition ad_pmf (dyn : bool) (vars : list nat) (t : adnode) : res (pmf * adnode) :=
    '(d, t') <- make_pmf D dyn vars t ;;
    Ok ({| probabilities := map (fun kv => (unwrap (map PInt (fst kv)), snd kv)) d; variableIDs := [];
           variable_IDs := Some (map Z.of_nat (sort_nat vars)) |}, t').
  (** `tuple(reversed(key))` (128-132); reversing is injective, so the new dictionary has the same
      number of entries *)
  Definition reverse_keys (P : pmf) : res pmf :=
    d <- mapM (fun kv : pyobj * R => match fst kv with PTup l => Ok (PTup (rev l), snd kv) | PInt _ => Err TypeError end) (probabilities P) ;;
    Ok (with_probabilities P d).
  (** make_cpmf_PrXYcZ (157-184; [single] false) and make_cpmf_PrXcZ (187-214; [single] true: the
      bare value is the key) *)
  Definition ad_condition (dyn single : bool) (vars Z : list nat) (PZ : pmf) (t : adnode) : res (cpmf * pmf * adnode) :=
    let unsorted := vars ++ Z in
    let joint := sort_nat unsorted in
    let lookup (k : pyobj) (v : nat) := i <- of_option KeyError (nat_index v joint) ;; key_at k i in
    '(PJ, t') <- ad_pmf dyn joint t ;;
    C <- foldM (fun C kv =>
           zk <- mapM (lookup (fst kv)) Z ;;
           vk <- mapM (lookup (fst kv)) (filter (fun v => negb (mem v Z)) unsorted) ;;
           vkey <- (if single then of_option IndexError (hd_error vk) else Ok (PTup vk)) ;;
           Ok (store_conditional C (unwrap zk) vkey (snd kv) (pmf_p PZ [unwrap zk])))
         (probabilities PJ) [] ;;
    Ok (C, PJ, t').
  (** calculate_pmf_from_AD_tree (124-154) *)
  Definition ad_tables (dyn : bool) (kind : dof_kind) (c : dcache) (t : adnode) (X Y : nat) (Z : list nat)
    : res (cpmf * cpmf * cpmf * pmf * dcache * adnode) :=
    match Z with
    | [] =>
      '(PXY0, t1) <- ad_pmf dyn (sort_nat [X; Y]) t ;;
      PXY <- (if list_eqb [X; Y] (sort_nat [X; Y]) then Ok PXY0 else reverse_keys PXY0) ;;
      '(PX, t2) <- ad_pmf dyn [X] t1 ;; '(PY, t3) <- ad_pmf dyn [Y] t2 ;;
      '(c', Ps) <- set_context_pmfs kind c [PXY; PX; PY] ;;
      match Ps with
      | [PXY'; PX'; PY'] => Ok (omega_cpmf PXY', omega_cpmf PX', omega_cpmf PY', omega_pmf, c', t3)
      | _ => Err RuntimeError
      end
    | _ =>
      let Z' := sort_nat Z in
      '(PZ, t1) <- ad_pmf dyn Z' t ;;
      '(CXY, PXYZ, t2) <- ad_condition dyn false [X; Y] Z' PZ t1 ;;
      '(CX, PXZ, t3) <- ad_condition dyn true [X] Z' PZ t2 ;;
      '(CY, PYZ, t4) <- ad_condition dyn true [Y] Z' PZ t3 ;;
      '(c', Ps) <- set_context_pmfs kind c [PXYZ; PXZ; PYZ; PZ] ;;
      match Ps with
      | [_; _; _; PZ'] => Ok (CXY, CX, CY, PZ', c', t4)
      | _ => Err RuntimeError
      end
    end.

  (** ** Joint entropies (G_test__with_dcMI.py:88-115) *)
  (** the part of the object that the entropy lookups change [G_test__with_dcMI.py:97-115] *)
  Record hstate := { h_jht : jht_table; h_reads : Z; h_misses : Z; h_cache : dcache }.
  (** get_joint_entropy_term (97-115); [vars]: the elements in the order in which they are put in
      the set *)
  Definition joint_entropy (kind : dof_kind) (vars : list nat) (h : hstate) : res (R * hstate) :=
    match vars with
    | [] => Ok (0%R, h)
    | _ =>
      let key := frozenset vars in
      match assoc list_eqb key (h_jht h) with
      | Some H => Ok (H, {| h_jht := h_jht h; h_reads := h_reads h + 1; h_misses := h_misses h; h_cache := h_cache h |})
      | None =>
        V <- get_variables_set (set_order p vars) ;;
        P <- new_pmf V ;;
        E <- expected_value (fun _ q => math_log q) P ;;
        '(c', _) <- set_context_pmfs kind (h_cache h) [P] ;;
        Ok ((- E)%R, {| h_jht := assoc_set list_eqb key (- E)%R (h_jht h); h_reads := h_reads h + 1;
                        h_misses := h_misses h + 1; h_cache := c' |})
      end
    end.
  (** G_value (88-94) *)
  Definition G_from_entropies (kind : dof_kind) (N : Z) (X Y : nat) (Z : list nat) (h : hstate) : res (R * hstate) :=
    '(HXYZ, h1) <- joint_entropy kind (X :: Y :: Z) h ;;
    '(HXZ, h2) <- joint_entropy kind (X :: Z) h1 ;;
    '(HYZ, h3) <- joint_entropy kind (Y :: Z) h2 ;;
    '(HZ, h4) <- joint_entropy kind Z h3 ;;
    Ok ((2 * IZR N * (HYZ + HXZ - HXYZ - HZ))%R, h4).

  (** ** G_test_conditionally_independent and conditionally_independent [G_test__unoptimized.py:45-62: the result is appended and the counter raised] *)
  Definition add_result (st : state) (t : option adnode) (h : hstate) (r : result) : state :=
    {| ad_tree := t; sample_size := sample_size st; jht := h_jht h; jht_counters := jht_counters st;
       jht_reads := h_reads h; jht_misses := h_misses h; dof_cache := h_cache h;
       results := results st ++ [r]; ci_test_counter := ci_test_counter st + 1 |}.
  (** the same part taken from the object (G_test__with_dcMI.py:97-115) *)
  Definition hstate_of (st : state) (c : dcache) : hstate :=
    {| h_jht := jht st; h_reads := jht_reads st; h_misses := jht_misses st; h_cache := c |}.
  (** the test proper (G_test__unoptimized.py:65-134, G_test__with_AD_tree.py:79-116,
      G_test__with_dcMI.py:41-85) and the bookkeeping of conditionally_independent
      (G_test__unoptimized.py:45-57) *)
  Definition run_test (im : impl) (kind : dof_kind) (st : state) (X Y : nat) (Z : list nat) : res (result * state) :=
    let N := sample_size st in
    let index := ci_test_counter st + 1 in
    match im with
    | Plain =>
      '(CXY, CX, CY, PZ, c') <- plain_tables kind (dof_cache st) X Y Z ;;
      '(DoF, CX', CY') <- calculate_DoF kind c' X Y Z CX CY PZ ;;
      r <- decide N index X Y Z DoF (G_from_tables N CXY CX' CY' PZ) ;;
      Ok (r, add_result st (ad_tree st) (hstate_of st c') r)
    | WithADTree dyn =>
      t <- of_option AttributeError (ad_tree st) ;;
      '(CXY, CX, CY, PZ, c', t') <- ad_tables dyn kind (dof_cache st) t X Y Z ;;
      '(DoF, CX', CY') <- calculate_DoF kind c' X Y Z CX CY PZ ;;
      r <- decide N index X Y Z DoF (G_from_tables N CXY CX' CY' PZ) ;;
      Ok (r, add_result st (Some t') (hstate_of st c') r)
    | WithDcMI =>
      '(G, h) <- G_from_entropies kind N X Y Z (hstate_of st (dof_cache st)) ;;
      '(DoF, _, _) <- calculate_DoF kind (h_cache h) X Y Z [] [] empty_pmf ;;
      r <- decide N index X Y Z DoF (Ok G) ;;
      Ok (r, add_result st (ad_tree st) h r)
    end.
  (** what the caller sees (G_test__unoptimized.py:59-62) *)
  Inductive outcome := Verdict (independent : bool) | RaisesInsufficientSamples.
  (** G_test__unoptimized.py:59-62 *)
  Definition outcome_of (r : result) : outcome :=
    match r_independent r with Some b => Verdict b | None => RaisesInsufficientSamples end.
  (** conditionally_independent (G_test__unoptimized.py:45-62) *)
  Definition conditionally_independent (im : impl) (kind : dof_kind) (st : state) (X Y : nat) (Z : list nat)
    : res (outcome * state) :=
    '(r, st') <- run_test im kind st X Y Z ;; Ok (outcome_of r, st').
  (** a sequence of calls [the arguments X, Y, Z of conditionally_independent (G_test__unoptimized.py:45)] *)
  Definition test := (nat * nat * list nat)%type.
  (** calls of conditionally_independent (G_test__unoptimized.py:45-62) one after the other *)
  Fixpoint run_tests (im : impl) (kind : dof_kind) (st : state) (tests : list test) : res (list outcome * state) :=
    match tests with
    | [] => Ok ([], st)
    | (X, Y, Z) :: tests' =>
      '(o, st1) <- conditionally_independent im kind st X Y Z ;;
      '(os, st2) <- run_tests im kind st1 tests' ;;
      Ok (o :: os, st2)
    end.

  (** ** Construction and the files *)
  (** a pickle file: missing, cut off in the middle of a write, or complete [G_test__unoptimized.py:167-172, G_test__with_dcMI.py:25-38, 118-126] *)
  Inductive file (A : Type) := Absent | Torn | Saved (a : A).
  Arguments Absent {A}. Arguments Torn {A}. Arguments Saved {A} a.
  (** `if path.exists(): pickle.load(f)` (G_test__with_dcMI.py:34-38, DoFCalculators.py:117-130) *)
  Definition read_file {A} (d : A) (f : file A) : res A :=
    match f with Absent => Ok d | Torn => Err PickleErr | Saved a => Ok a end.
  (** the JHT dictionary as an object: its entries, and the entries 'reads' and 'misses' if present [G_test__with_dcMI.py:25-38, 118-126] *)
  Definition jht_dict := (jht_table * option (Z * Z))%type.
  (** the files of G_test__unoptimized.py:167-172, DoFCalculators.py:214-221, G_test__with_dcMI.py:118-126 *)
  Record disk := { f_results : file (list result); f_dofs : file dcache; f_jht : file jht_dict }.
  (** __init__ (G_test__unoptimized.py:21-42; G_test__with_AD_tree.py:17-53 with or without
      'ci_test_ad_tree_preloaded'; G_test__with_dcMI.py:13-38; CachedStructuralDoF.__init__ 116-130).
      The load paths of the JHT and the DoF cache are those of the disk. *)
  Definition start (im : impl) (kind : dof_kind) (tree : option adnode) (preloaded : option jht_dict) (dk : disk) : res state :=
    c <- (match kind with CachedStructuralDoF => read_file [] (f_dofs dk) | _ => Ok [] end) ;;
    let fresh := {| ad_tree := None; sample_size := Z.of_nat (nrows D); jht := []; jht_counters := None; jht_reads := 0;
                    jht_misses := 0; dof_cache := c; results := []; ci_test_counter := 0 |} in
    match im with
    | Plain => Ok fresh
    | WithADTree dyn =>
      t <- (match tree with Some t => Ok t | None => build_tree D dyn end) ;;
      '(n, t') <- query_count D dyn [] t ;;
      Ok {| ad_tree := Some t'; sample_size := n; jht := []; jht_counters := None; jht_reads := 0;
            jht_misses := 0; dof_cache := c; results := []; ci_test_counter := 0 |}
    | WithDcMI =>
      if requires_cpmfs kind then Err ValueError else
      let with_jht (j : jht_dict) :=
        '(r, m) <- of_option KeyError (snd j) ;;
        Ok {| ad_tree := None; sample_size := Z.of_nat (nrows D); jht := fst j; jht_counters := snd j; jht_reads := r;
              jht_misses := m; dof_cache := c; results := []; ci_test_counter := 0 |} in
      match preloaded with
      | Some j => with_jht j
      | None => match f_jht dk with Absent => Ok fresh | Torn => Err PickleErr | Saved j => with_jht j end
      end
    end.
  (** end (G_test__unoptimized.py:167-172, G_test__with_dcMI.py:118-126, CachedStructuralDoF.end
      214-222): the writes in order; each first truncates the file.  A process may be killed after
      any number of them. *)
  Definition end_steps (im : impl) (kind : dof_kind) (st : state) : list (disk -> disk) :=
    [ (fun d => {| f_results := Torn; f_dofs := f_dofs d; f_jht := f_jht d |});
      (fun d => {| f_results := Saved (results st); f_dofs := f_dofs d; f_jht := f_jht d |}) ] ++
    (match kind with
     | CachedStructuralDoF =>
       [ (fun d => {| f_results := f_results d; f_dofs := Torn; f_jht := f_jht d |});
         (fun d => {| f_results := f_results d; f_dofs := Saved (dof_cache st); f_jht := f_jht d |}) ]
     | _ => [] end) ++
    (match im with
     | WithDcMI =>
       [ (fun d => {| f_results := f_results d; f_dofs := f_dofs d; f_jht := Torn |});
         (fun d => {| f_results := f_results d; f_dofs := f_dofs d; f_jht := Saved (jht st, Some (jht_reads st, jht_misses st)) |}) ]
     | _ => [] end).
  (** end() killed after some writes (G_test__unoptimized.py:167-172, DoFCalculators.py:214-221, G_test__with_dcMI.py:118-126) *)
  Definition end_crashing (im : impl) (kind : dof_kind) (st : state) (steps : nat) (d : disk) : disk :=
    fold_left (fun d f => f d) (firstn steps (end_steps im kind st)) d.
  (** a process: construct the object from the disk, run some tests, then be killed after [steps]
      writes of end() (0: before end(); 6 or more: end() completes).  If the construction fails,
      nothing is written. *)
  Record session := { s_tests : list test; s_steps : nat }.
  (** several processes one after the other, each using G_test__unoptimized.py:19-62, 167-172 *)
  Fixpoint run_sessions (im : impl) (kind : dof_kind) (ss : list session) (d : disk) : list (res (list outcome)) * disk :=
    match ss with
    | [] => ([], d)
    | s :: ss' =>
      let '(o, d1) :=
        match start im kind None None d with
        | Err e => (Err e, d)
        | Ok st => match run_tests im kind st (s_tests s) with
                   | Err e => (Err e, d)
                   | Ok (os, st') => (Ok os, end_crashing im kind st' (s_steps s) d)
                   end
        end in
      let '(rest, d2) := run_sessions im kind ss' d1 in (o :: rest, d2)
    end.
End GTest.
Arguments Absent {A}. Arguments Torn {A}. Arguments Saved {A} a.
