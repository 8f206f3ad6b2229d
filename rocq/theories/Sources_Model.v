(** Model of mbtk/dataset/sources/BinarySyntheticDatasetSource.py and
    mbtk/dataset/sources/SampledBayesianNetworkDatasetSource.py.

    Simplifications:
    - the random module is an abstract generator, given by what `random.seed` and `random.shuffle`
      (or, for sampling, the future results of `random.random`) do to its state;
    - the floating-point product row_count * p_one is an argument [product] with rational results;
    - the numpy data types are assumed to hold the values; sparse matrices are their dense content
      (as in Matrix_Model.v);
    - dictionaries are association lists with distinct keys; metadata is left out. *)
From Coq Require Import String QArith Reals DecimalNat.
From Verif Require Import Base Matrix_Model BN_Model.
Open Scope nat_scope.

(** `'row{}'.format(i)`: the letters r, o, w and the decimal digits of i [BinarySyntheticDatasetSource.py:40] *)
Fixpoint digits (u : Decimal.uint) : text :=
  match u with
  | Decimal.Nil => []
  | Decimal.D0 u => 48 :: digits u | Decimal.D1 u => 49 :: digits u | Decimal.D2 u => 50 :: digits u
  | Decimal.D3 u => 51 :: digits u | Decimal.D4 u => 52 :: digits u | Decimal.D5 u => 53 :: digits u
  | Decimal.D6 u => 54 :: digits u | Decimal.D7 u => 55 :: digits u | Decimal.D8 u => 56 :: digits u
  | Decimal.D9 u => 57 :: digits u
  end.
(** 'row{}'.format(i) (BinarySyntheticDatasetSource.py:40) *)
Definition row_label (i : nat) : text := 114 :: 111 :: 119 :: digits (Nat.to_uint i).
(** ['row{}'.format(i) for i in range(0, n)] *)
Definition row_labels (n : Z) : list text := map row_label (seq 0 (Z.to_nat n)).

(** Python's order on strings: by code points, a proper prefix comes first [BinarySyntheticDatasetSource.py:52] *)
Fixpoint text_leb (a b : text) : bool :=
  match a, b with
  | [], _ => true
  | _ :: _, [] => false
  | x :: a', y :: b' => (x <? y) || ((x =? y) && text_leb a' b')
  end.
(** == of labels (BinarySyntheticDatasetSource.py:53) *)
Fixpoint text_eqb (a b : text) : bool :=
  match a, b with
  | [], [] => true
  | x :: a', y :: b' => (x =? y) && text_eqb a' b'
  | _, _ => false
  end.
(** for sorted (BinarySyntheticDatasetSource.py:52) *)
Fixpoint insert_text (x : text) (l : list text) : list text :=
  match l with [] => [x] | y :: l' => if text_leb x y then x :: l else y :: insert_text x l' end.
(** `sorted` on strings [BinarySyntheticDatasetSource.py:52] *)
Definition sort_text (l : list text) : list text := fold_right insert_text [] l.

(** int(q): towards zero [BinarySyntheticDatasetSource.py:63] *)
Definition int_of (q : Q) : Z := Z.quot (Qnum q) (Zpos (Qden q)).
(** `[x] * k`: the empty list for a negative k [BinarySyntheticDatasetSource.py:64] *)
Definition py_repeat {A} (x : A) (k : Z) : list A := repeat x (Z.to_nat k).
(** the rows of the matrix whose columns are given [BinarySyntheticDatasetSource.py:58, SampledBayesianNetworkDatasetSource.py:41-49] *)
Definition rows_of_columns (height : nat) (columns : list (list Z)) : list (list Z) :=
  map (fun r => map (fun c => nth r c 0%Z) columns) (seq 0 height).
(** scipy.sparse.hstack(columns).tocsr(): ValueError for no block or for blocks of different heights [BinarySyntheticDatasetSource.py:58, 38-39] *)
Definition hstack_columns (columns : list (list Z)) : res smat :=
  match columns with
  | [] => Err ValueError
  | c :: _ => if forallb (fun c' => length c' =? length c) columns
              then Ok (SMat CSR (length columns) (rows_of_columns (length c) columns)) else Err ValueError
  end.

(** ** BinarySyntheticDatasetSource *)
Section Binary.
  Context {rng : Type} (seed : Z -> rng) (shuffle : rng -> list Z -> list Z * rng) (product : Z -> Q -> Q).

  (** self.configuration (BinarySyntheticDatasetSource.py:15-35) *)
  Record bconf := { bc_rows : Z; bc_seed : Z; bc_features : list (text * Q); bc_objectives : list (text * Q) }.
  (** __init__ (15-17) *)
  Record bsource := { bs_conf : bconf; bs_reset : bool }.
  (** BinarySyntheticDatasetSource.__init__ (BinarySyntheticDatasetSource.py:15-17) *)
  Definition new_bsource (c : bconf) : bsource := {| bs_conf := c; bs_reset := true |}.

  (** create_shuffled_binary_column (62-67) *)
  Definition create_shuffled_binary_column (row_count : Z) (p_one : Q) (g : rng) : list Z * rng :=
    let n_ones := int_of (product row_count p_one) in
    shuffle g (py_repeat 1%Z n_ones ++ py_repeat 0%Z (row_count - n_ones)).

  (** the loop of create_random_binary_matrix (48-57) *)
  Fixpoint create_columns (row_count : Z) (probabilities : list (text * Q)) (labels : list text) (g : rng)
    : res (list (list Z)) * rng :=
    match labels with
    | [] => (Ok [], g)
    | l :: labels' =>
      match assoc text_eqb l probabilities with
      | None => (Err KeyError, g)
      | Some p =>
        let (c, g1) := create_shuffled_binary_column row_count p g in
        let (cs, g2) := create_columns row_count probabilities labels' g1 in
        (cs' <- cs ;; Ok (c :: cs'), g2)
      end
    end.
  (** create_random_binary_matrix (48-59) *)
  Definition create_random_binary_matrix (row_count : Z) (probabilities : list (text * Q)) (g : rng)
    : res (smat * list text) * rng :=
    let labels := sort_text (map fst probabilities) in
    let (cs, g1) := create_columns row_count probabilities labels g in
    (columns <- cs ;; m <- hstack_columns columns ;; Ok (m, labels), g1).

  (** create_dataset_matrix (20-45): the result, the source afterwards, the generator afterwards.
      The default of other_random_seed is -1. *)
  Definition bsource_create (s : bsource) (label : string) (other_random_seed : Z) (g : rng) : res dmatrix * bsource * rng :=
    let c := bs_conf s in
    let reseed := bs_reset s || (negb (other_random_seed =? -1)%Z && negb (other_random_seed =? bc_seed c)%Z) in
    let g0 := if reseed then (if (other_random_seed =? -1)%Z then seed (bc_seed c) else seed other_random_seed) else g in
    let s' := {| bs_conf := c; bs_reset := if reseed then false else bs_reset s |} in
    let (rx, g1) := create_random_binary_matrix (bc_rows c) (bc_features c) g0 in
    match rx with
    | Err e => (Err e, s', g1)
    | Ok (X, labels_X) =>
      let (ry, g2) := create_random_binary_matrix (bc_rows c) (bc_objectives c) g1 in
      (Y <- ry ;; Ok (DMat label X (fst Y) (row_labels (bc_rows c)) labels_X (snd Y) false), s', g2)
    end.
End Binary.

(** ** SampledBayesianNetworkDatasetSource *)
(** The configured method; [Other] is any string but 'random' and 'exact'. [SampledBayesianNetworkDatasetSource.py:26-30] *)
Inductive method := Random | Exact | Other.
(** self.configuration (SampledBayesianNetworkDatasetSource.py:25-86) *)
Record sconf := { sc_method : method; sc_count : Z; sc_seed : Z; sc_objectives : list nat }.
(** __init__ (16-22) *)
Record ssource := { ss_conf : sconf; ss_bn : bn; ss_reset : bool }.
(** __init__ (SampledBayesianNetworkDatasetSource.py:16-22) *)
Definition new_ssource (c : sconf) (b : bn) : ssource := {| ss_conf := c; ss_bn := b; ss_reset := true |}.

Section Sampled.
  (** [seed k]: the results that random.random() gives after random.seed(k).
      [exact]: the result of create_exact_instances (62-71), which joins create_joint_pmf
      (BN_Model.v) and create_instances_list (Instances_Model.v).
      [show]: the strings for which the names in BN_Model.v stand. *)
  Context (seed : Z -> list R) (exact : res (list (list nat))) (show : nat -> text).

  (** create_random_instances (74-86) *)
  Definition create_random_instances (s : ssource) (other_random_seed : Z) (rolls : list R)
    : res (list (list nat) * list R) * ssource :=
    let c := ss_conf s in
    let reseed := ss_reset s || (negb (other_random_seed =? -1)%Z && negb (other_random_seed =? sc_seed c)%Z) in
    let rolls0 := if reseed then (if (other_random_seed =? -1)%Z then seed (sc_seed c) else seed other_random_seed) else rolls in
    (guarded (ss_bn s) (sample_matrix (ss_bn s) (Z.to_nat (sc_count c)) rolls0),
     {| ss_conf := c; ss_bn := ss_bn s; ss_reset := if reseed then false else ss_reset s |}).

  (** instances_matrix[:, varindex]: an array made of no rows has one dimension only [SampledBayesianNetworkDatasetSource.py:43, 48] *)
  Definition instances_column (rows : list (list nat)) (i : nat) : res (list Z) :=
    match rows with
    | [] => Err IndexError
    | _ => mapM (fun row => x <- of_option IndexError (nth_error row i) ;; Ok (Z.of_nat x)) rows
    end.
  (** the loops (41-49): numpy.hstack((X, column)) raises ValueError unless the heights agree *)
  Definition collect_columns (b : bn) (rows : list (list nat)) (height : nat) (names : list nat) : res (list (list Z)) :=
    mapM (fun v => i <- variable_nodes_index b v ;; c <- instances_column rows i ;;
                   if length c =? height then Ok c else Err ValueError) names.

  (** create_dataset_matrix (25-59) *)
  Definition ssource_create (s : ssource) (label : string) (other_random_seed : Z) (rolls : list R)
    : res (dmatrix * list R) * ssource :=
    let c := ss_conf s in
    let (instances, s') :=
      match sc_method c with
      | Random => create_random_instances s other_random_seed rolls
      | Exact => (rows <- exact ;; Ok (rows, rolls), s)
      | Other => (Err NameErr, s)          (* UnboundLocalError *)
      end in
    ('(rows, rolls') <- instances ;;
     if (sc_count c <? 0)%Z then Err ValueError else
     let height := Z.to_nat (sc_count c) in
     let objective_names := sort_nat (sc_objectives c) in
     let feature_names := sort_nat (nodup Nat.eq_dec (filter (fun v => negb (mem v objective_names)) (variable_node_names (ss_bn s)))) in
     X <- collect_columns (ss_bn s) rows height feature_names ;;
     Y <- collect_columns (ss_bn s) rows height objective_names ;;
     Ok (DMat label (SMat CSR (length X) (rows_of_columns height X)) (SMat CSR (length Y) (rows_of_columns height Y))
              (row_labels (sc_count c)) (map show feature_names) (map show objective_names) false, rolls'), s').
End Sampled.
