(** Model of mbtk/math/Variable.py, mbtk/math/PMF.py and mbtk/math/infotheory.py.

    Simplifications: floating point numbers are exact real numbers; variable names, `values`,
    IndexVariable, SortedJointVariables (whose constructor cannot run) and __str__ are left out; __eq__ and the
    diff printers are in PMFEq_Model.v; value_counts/total_count exist only while a table is constructed. *)
From Coq Require Import Reals.
From Verif Require Import Base Key_Model.
Open Scope Z_scope.

(** ** Variables (Variable.py:8-113) *)

(** A simple Variable.  [array]: the instances are a numpy array (as DatasetMatrix.get_variable
    makes them) rather than a list; [lazy]: `instances_list` is still None, so JointVariables does
    not check its length. [Variable.py:8-41, DatasetMatrix.py:186-222] *)
Record variable := { vid : Z; insts : list Z; array : bool; lazy : bool }.
(** Variable, Omega (Variable.py:45-60), JointVariables (64-116; its components are flat) *)
Inductive var := Simple (v : variable) | OmegaVar (n : nat) | Joint (vs : list variable).

(** flatten_variables_list (Variable.py:103-110): `type(variable) == Variable` and
    `type(variable) == JointVariables` are exact type tests, so an Omega is dropped *)
Definition flatten_variables (vs : list var) : list variable :=
  flat_map (fun v => match v with Simple x => [x] | OmegaVar _ => [] | Joint l => l end) vs.

(** validate_variable_lengths (Variable.py:150-154) *)
Fixpoint lengths_agree (vs : list variable) : bool :=
  match vs with
  | x :: ((y :: _) as vs') => (Nat.eqb (length (insts x)) (length (insts y)) && lengths_agree vs')%bool
  | _ => true
  end.

(** JointVariables.__init__ (Variable.py:66-78) *)
Definition joint_variables (vs : list var) : res var :=
  let fl := flatten_variables vs in
  if forallb (fun v => negb (lazy v)) fl then
    if lengths_agree fl then Ok (Joint fl) else Err UnequalCount
  else Ok (Joint fl).

(** `zip( *lists)`: stops with the shortest; of no lists at all, empty [Variable.py:86-89] *)
Fixpoint zip2 {A} (l : list A) (m : list (list A)) : list (list A) :=
  match l, m with x :: l', y :: m' => (x :: y) :: zip2 l' m' | _, _ => [] end.
(** zip of any number of lists (Variable.py:86-89) *)
Fixpoint zip_all (ls : list (list Z)) : list (list Z) :=
  match ls with
  | [] => []
  | [l] => map (fun x => [x]) l
  | l :: ls' => zip2 l (zip_all ls')
  end.

(** instances() (Variable.py:28-31, 56-57, 86-89) *)
Definition instances (v : var) : list pyobj :=
  match v with
  | Simple x => map PInt (insts x)
  | OmegaVar n => repeat (PInt 1) n
  | Joint [x] => map PInt (insts x)
  | Joint vs => map (fun t => PTup (map PInt t)) (zip_all (map insts vs))
  end.
(** __len__ (Variable.py:20-21, 59-60, 92-93) *)
Definition var_len (v : var) : res nat :=
  match v with
  | Simple x => Ok (length (insts x))
  | OmegaVar n => Ok n
  | Joint [] => Err IndexError
  | Joint (x :: _) => Ok (length (insts x))
  end.
(** IDs() (Variable.py:24-25, 81-83); an Omega has ID -1024 *)
Definition var_IDs (v : var) : list Z :=
  match v with Simple x => [vid x] | OmegaVar _ => [-1024] | Joint vs => map vid vs end.
(** `isinstance(instances, numpy.ndarray)` (PMF.py:119) *)
Definition is_ndarray (v : var) : bool :=
  match v with Simple x => array x | OmegaVar _ => false | Joint [x] => array x | Joint _ => false end.

(** ** PMF (PMF.py:12-213) *)

(** [variable_IDs]: `pmf.variable.variableIDs` if that attribute exists (JointVariables, or the
    JointVariablesIDs put there by ADTree.make_pmf); used by the DoF calculators only. [PMF.py:17-29] *)
Record pmf := { probabilities : list (pyobj * R); variableIDs : list Z; variable_IDs : option (list Z) }.
(** PMF(None) (PMF.py:17-29) *)
Definition empty_pmf : pmf := {| probabilities := []; variableIDs := []; variable_IDs := None |}.
(** pmf.probabilities = d (PMF.py:17-29) *)
Definition with_probabilities (P : pmf) (d : list (pyobj * R)) : pmf :=
  {| probabilities := d; variableIDs := variableIDs P; variable_IDs := variable_IDs P |}.

(** `Counter(instances)`: keys in order of first occurrence [PMF.py:117-121] *)
Definition count_one (d : list (pyobj * Z)) (k : pyobj) : list (pyobj * Z) :=
  match assoc pyobj_eqb k d with
  | Some n => assoc_set pyobj_eqb k (n + 1) d
  | None => assoc_set pyobj_eqb k 1 d
  end.
(** Counter(instances) (PMF.py:117-121) *)
Definition counter (l : list pyobj) : list (pyobj * Z) := fold_left count_one l [].
(** `dict(zip( *numpy.unique(instances, return_counts=True)))`: the same, sorted by key [PMF.py:117-121] *)
Definition key_le (a b : pyobj) : bool := match a, b with PInt x, PInt y => x <=? y | _, _ => true end.
(** numpy.unique sorts (PMF.py:117-121) *)
Fixpoint insert_key (x : pyobj * Z) (l : list (pyobj * Z)) : list (pyobj * Z) :=
  match l with [] => [x] | y :: l' => if key_le (fst x) (fst y) then x :: l else y :: insert_key x l' end.
(** numpy.unique with counts (PMF.py:117-121) *)
Definition np_unique (l : list pyobj) : list (pyobj * Z) := fold_right insert_key [] (counter l).
(** count_values (PMF.py:117-121) *)
Definition count_values (v : var) : list (pyobj * Z) :=
  if is_ndarray v then np_unique (instances v) else counter (instances v).
(** normalize_counts (PMF.py:124-132) *)
Definition normalize_counts (counts : list (pyobj * Z)) (total : Z) : res (list (pyobj * R)) :=
  mapM (fun kc => if total =? 0 then Err ZeroDivisionError else Ok (fst kc, (IZR (snd kc) / IZR total)%R)) counts.
(** PMF.__init__ (PMF.py:17-29) *)
Definition new_pmf (v : var) : res pmf :=
  n <- var_len v ;;
  d <- normalize_counts (count_values v) (Z.of_nat n) ;;
  Ok {| probabilities := d; variableIDs := var_IDs v;
        variable_IDs := match v with Joint vs => Some (map vid vs) | _ => None end |}.

(** p (PMF.py:78-84) *)
Definition pmf_p (P : pmf) (args : list pyobj) : R :=
  match assoc pyobj_eqb (process_pmf_key args) (probabilities P) with Some r => r | None => 0%R end.
(** remove_zeros (PMF.py:69-75) *)
Definition remove_zeros (P : pmf) : pmf :=
  with_probabilities P (filter (fun kv => if Req_EM_T (snd kv) 0 then false else true) (probabilities P)).

(** `variableIDs.index(ID)` [PMF.py:94-110, 169-199] *)
Fixpoint index_of (x : Z) (l : list Z) : option nat :=
  match l with [] => None | y :: l' => if x =? y then Some O else option_map S (index_of x l') end.
(** remove_from_key (PMF.py:113-114) *)
Definition remove_at {A} (l : list A) (i : nat) : list A := firstn i l ++ skipn (S i) l.
(** remove_from_key (PMF.py:113-114) *)
Definition remove_from_key (k : pyobj) (i : nat) : res (list pyobj) :=
  match k with PInt _ => Err TypeError | PTup l => Ok (remove_at l i) end.
(** `try: d[k] += v except KeyError: d[k] = v` [PMF.py:94-110] *)
Definition add_to (d : list (pyobj * R)) (k : pyobj) (v : R) : list (pyobj * R) :=
  match assoc pyobj_eqb k d with
  | Some r => assoc_set pyobj_eqb k (r + v)%R d
  | None => assoc_set pyobj_eqb k v d
  end.
(** sum_over (PMF.py:94-110) *)
Definition sum_over (P : pmf) (ID : Z) : res pmf :=
  i <- of_option ValueError (index_of ID (variableIDs P)) ;;
  d <- foldM (fun d kv => nk <- remove_from_key (fst kv) i ;; Ok (add_to d (process_pmf_key nk) (snd kv))) (probabilities P) [] ;;
  Ok {| probabilities := d; variableIDs := remove_at (variableIDs P) i; variable_IDs := None |}.

(** ** CPMF (PMF.py:217-304): a dictionary of PMFs *)
Definition cpmf := list (pyobj * pmf).
(** given (PMF.py:260-266) *)
Definition given (C : cpmf) (args : list pyobj) : pmf :=
  match assoc pyobj_eqb (process_pmf_key args) C with Some P => P | None => empty_pmf end.

(** `joint_key[i]`: an integer cannot be subscripted [PMF.py:169-199].  Simplification: a key that came out of numpy.unique
    is a numpy integer, and subscripting that raises IndexError; TypeError stands for both *)
Definition key_at (k : pyobj) (i : nat) : res pyobj :=
  match k with PInt _ => Err TypeError | PTup l => of_option IndexError (nth_error l i) end.
(** `joint_index[var]` [PMF.py:169-199] *)
Definition joint_index (ids : list Z) (v : Z) : res nat := of_option KeyError (index_of v ids).
(** `if len(cond_key) == 1: cond_key = cond_key[0]` *)
Definition unwrap (l : list pyobj) : pyobj := match l with [k] => k | _ => PTup l end.
(** one joint entry of condition_on (PMF.py:181-197), also of G_test__with_AD_tree
    (169-182, 199-212): store joint_p / p(z) in the table of z; a table is created even if the
    division fails *)
Definition store_conditional (C : cpmf) (zkey varkey : pyobj) (joint_p pz : R) : cpmf :=
  let P := match assoc pyobj_eqb zkey C with Some P => P | None => empty_pmf end in
  let P' := if Req_EM_T pz 0 then P
            else with_probabilities P (assoc_set pyobj_eqb varkey (joint_p / pz)%R (probabilities P)) in
  assoc_set pyobj_eqb zkey P' C.
(** condition_on (PMF.py:169-199) *)
Definition condition_on (P : pmf) (cond : pmf) : res cpmf :=
  match variableIDs cond with
  | [] => Err ValueError
  | cond_vars =>
    let ids := variableIDs P in
    let non_cond := filter (fun v => negb (existsb (Z.eqb v) cond_vars)) ids in
    foldM (fun C kv =>
      ck <- mapM (fun v => i <- joint_index ids v ;; key_at (fst kv) i) cond_vars ;;
      nk <- mapM (fun v => i <- joint_index ids v ;; key_at (fst kv) i) non_cond ;;
      Ok (store_conditional C (unwrap ck) (PTup nk) (snd kv) (pmf_p cond [unwrap ck])))
      (probabilities P) []
  end.

(** count_values_conditionally, normalize_conditional_counts (PMF.py:269-289): the constructor
    CPMF(variable, given) from data *)
Definition count_cond (C : list (pyobj * list (pyobj * Z))) (vc : pyobj * pyobj) : list (pyobj * list (pyobj * Z)) :=
  let d := match assoc pyobj_eqb (snd vc) C with Some d => d | None => [] end in
  assoc_set pyobj_eqb (snd vc) (count_one d (fst vc)) C.
(** CPMF.__init__ (PMF.py:219-232) *)
Definition new_cpmf (v given : var) : res cpmf :=
  let C := fold_left count_cond (combine (instances v) (instances given)) [] in
  mapM (fun zc : pyobj * list (pyobj * Z) =>
    d <- normalize_counts (snd zc) (zsum (map snd (snd zc))) ;;
    Ok (fst zc, with_probabilities empty_pmf d)) C.

(** OmegaPMF, OmegaCPMF (PMF.py:308-320) *)
Definition omega_pmf : pmf := with_probabilities empty_pmf [(PInt 1, 1%R)].
(** OmegaCPMF (PMF.py:316-320) *)
Definition omega_cpmf (P : pmf) : cpmf := [(PInt 1, P)].

(** expected_value (PMF.py:135-136) *)
Fixpoint Rsum (l : list R) : R := match l with [] => 0%R | x :: l' => (x + Rsum l')%R end.
(** expected_value (PMF.py:135-136) *)
Definition expected_value (f : pyobj -> R -> res R) (P : pmf) : res R :=
  l <- mapM (fun kv => x <- f (fst kv) (snd kv) ;; Ok (snd kv * x)%R) (probabilities P) ;;
  Ok (Rsum l).

(** ** infotheory.py [the parameter base (infotheory.py:76-85)] *)
Inductive log_base := BaseE | Base2 | Base10 | BaseFloat (b : R) | BaseOther.
(** math.log: ValueError outside its domain [infotheory.py:76-85] *)
Definition math_log (x : R) : res R := if Rlt_dec 0 x then Ok (ln x) else Err ValueError.
(** create_logarithm_function (infotheory.py:76-85) applied to [x]; `math.log(x, b)` is
    log x / log b *)
Definition log_fun (b : log_base) (x : R) : res R :=
  match b with
  | BaseE => math_log x
  | Base2 => y <- math_log x ;; Ok (y / ln 2)%R
  | Base10 => y <- math_log x ;; Ok (y / ln 10)%R
  | BaseFloat c => y <- math_log x ;; z <- math_log c ;; if Req_EM_T z 0 then Err ZeroDivisionError else Ok (y / z)%R
  | BaseOther => Err AssertionError
  end.
(** the `assert isinstance(base, float)` made when the logarithm is chosen, before any table is read
    (infotheory.py:76-85; called at 15 and 38) *)
Definition check_base (b : log_base) : res unit := match b with BaseOther => Err AssertionError | _ => Ok tt end.
(** == 0 (infotheory.py:8-48) *)
Definition is_zero (x : R) : bool := if Req_EM_T x 0 then true else false.

(** mutual_information (infotheory.py:8-25) *)
Definition mutual_information (PXY PX PY : pmf) (b : log_base) : res R :=
  _ <- check_base b ;;
  foldM (fun acc xp =>
    foldM (fun acc yp =>
      let pxy := pmf_p PXY [fst xp; fst yp] in
      if (is_zero pxy || is_zero (snd xp) || is_zero (snd yp))%bool then Ok acc
      else l <- log_fun b (pxy / (snd xp * snd yp))%R ;; Ok (acc + pxy * l)%R)
    (probabilities PY) acc)
  (probabilities PX) 0%R.

(** conditional_mutual_information (infotheory.py:29-48), before and after `abs` *)
Definition cmi_sum (CXY CX CY : cpmf) (PZ : pmf) (b : log_base) : res R :=
  _ <- check_base b ;;
  foldM (fun acc zp =>
    foldM (fun acc xp =>
      foldM (fun acc yp =>
        let pxycz := pmf_p (given CXY [fst zp]) [fst xp; fst yp] in
        if (is_zero pxycz || is_zero (snd xp) || is_zero (snd yp))%bool then Ok acc
        else l <- log_fun b (pxycz / (snd xp * snd yp))%R ;; Ok (acc + snd zp * pxycz * l)%R)
      (probabilities (given CY [fst zp])) acc)
    (probabilities (given CX [fst zp])) acc)
  (probabilities PZ) 0%R.
(** conditional_mutual_information (infotheory.py:29-48) *)
Definition conditional_mutual_information (CXY CX CY : cpmf) (PZ : pmf) (b : log_base) : res R :=
  s <- cmi_sum CXY CX CY PZ b ;; Ok (Rabs s).

(** calculate_pmf_for_mi, calculate_pmf_for_cmi (infotheory.py:52-72) *)
Definition calculate_pmf_for_mi (X Y : var) : res (pmf * pmf * pmf) :=
  XY <- joint_variables [X; Y] ;; PXY <- new_pmf XY ;; PX <- new_pmf X ;; PY <- new_pmf Y ;; Ok (PXY, PX, PY).
(** calculate_pmf_for_cmi (infotheory.py:61-72) *)
Definition calculate_pmf_for_cmi (X Y Z : var) : res (cpmf * cpmf * cpmf * pmf) :=
  XY <- joint_variables [X; Y] ;; CXY <- new_cpmf XY Z ;; CX <- new_cpmf X Z ;; CY <- new_cpmf Y Z ;;
  PZ <- new_pmf Z ;; Ok (CXY, CX, CY, PZ).
