(** Model of experiments/gtest_enum.py: the enumeration of all conditional independence tests over M
    features, the joint entropy terms each of them needs, and the report of how many tests need each term.
    Features (single characters) are their code points.  A set is kept as the increasing list of its
    elements, so that equal sets are equal; the order in which Python walks through a set is a parameter
    ([it]).  Not modelled: __str__, as_bits and the command line; floats that are whole numbers are naturals. *)
From Verif Require Import Base MB_Model Sources_Model.
Open Scope nat_scope.

(** make_features, as a set in some order [gtest_enum.py:10-12] *)
Definition make_features (count : nat) : list nat := seq 65 count.

(** class Test [gtest_enum.py:16-24] *)
Record test := Test { tX : nat; tY : nat; tZ : list nat }.
(** Test.__init__ [gtest_enum.py:18-25] *)
Definition mk_test (x y : nat) (z : list nat) : test :=
  if y <? x then Test y x (frozenset z) else Test x y (frozenset z).
(** self.XZ [gtest_enum.py:28] *)
Definition tXZ (t : test) : list nat := frozenset (tZ t ++ [tX t]).
(** self.YZ [gtest_enum.py:29] *)
Definition tYZ (t : test) : list nat := frozenset (tZ t ++ [tY t]).
(** self.XYZ [gtest_enum.py:30] *)
Definition tXYZ (t : test) : list nat := frozenset (tZ t ++ [tX t] ++ [tY t]).
(** joint_entropy_terms [gtest_enum.py:52-53] *)
Definition joint_entropy_terms (t : test) : list (list nat) := [tXZ t; tYZ t; tXYZ t; tZ t].

(** cond_set_sizes [gtest_enum.py:77-78] *)
Definition cond_set_sizes (features : list nat) : list nat := seq 0 (length features - 1).
(** iter_tests; [features] in the order in which the set is walked through [gtest_enum.py:81-86] *)
Definition iter_tests (it : list nat -> list nat) (features : list nat) : list test :=
  flat_map (fun size =>
    flat_map (fun Z =>
      flat_map (fun XY => match XY with [X; Y] => [mk_test X Y Z] | _ => [] end)
        (sort_text (combinations 2 (it (set_diff features Z)))))
      (sort_text (combinations size features)))
    (cond_set_sizes features).
(** count_tests_of_cond_set_size [gtest_enum.py:69-74] *)
Definition count_tests_of_cond_set_size (tests : list test) (size : nat) : nat :=
  fold_left (fun count t => if length (tZ t) =? size then S count else count) tests 0.

(** == of two sets [the keys of the dictionaries of gtest_enum.py:159-160] *)
Definition set_eqb (a b : list nat) : bool := if list_eq_dec Nat.eq_dec a b then true else false.
(** d[k] += 1 of a Counter or a defaultdict(int) [gtest_enum.py:95, 167] *)
Definition count_up {K} (eqb : K -> K -> bool) (d : list (K * nat)) (k : K) : list (K * nat) :=
  assoc_set eqb k (S (match assoc eqb k d with Some n => n | None => 0 end)) d.
(** jht_index[jht].append(test) [gtest_enum.py:169-170] *)
Definition append_to (t : test) (d : list (list nat * list test)) (k : list nat) : list (list nat * list test) :=
  assoc_set set_eqb k ((match assoc set_eqb k d with Some l => l | None => [] end) ++ [t]) d.
(** the loop over the tests: jht_counter and jht_index [gtest_enum.py:159-170] *)
Definition collect (tests : list test) : list (list nat * nat) * list (list nat * list test) :=
  fold_left (fun '(counter, index) t =>
    (fold_left (count_up set_eqb) (joint_entropy_terms t) counter,
     fold_left (append_to t) (joint_entropy_terms t) index)) tests ([], []).

(** make_jht_index_summary [gtest_enum.py:89-99] *)
Definition make_jht_index_summary (index : list (list nat * list test)) : list (list nat * list (nat * nat)) :=
  map (fun e => (fst e, fold_left (fun d t => count_up Nat.eqb d (length (tZ t))) (snd e) [])) index.
(** == of two dictionaries from int to int [gtest_enum.py:108] *)
Definition dict_eqb (a b : list (nat * nat)) : bool :=
  (length a =? length b) && forallb (fun e => match assoc Nat.eqb (fst e) b with Some n => n =? snd e | None => false end) a.
(** validate_and_flatten_summary [gtest_enum.py:102-112] *)
Definition validate_and_flatten_summary (summary : list (list nat * list (nat * nat))) : res (list (nat * list (nat * nat))) :=
  foldM (fun flat e =>
    match assoc Nat.eqb (length (fst e)) flat with
    | Some existing => if dict_eqb existing (snd e) then Ok flat else Err AssertionError
    | None => Ok (assoc_set Nat.eqb (length (fst e)) (snd e) flat)
    end) summary [].

(** math.comb [gtest_enum.py:119, 127] *)
Definition comb (n k : nat) : nat := if k <=? n then fact n / (fact k * fact (n - k)) else 0.
(** expected_jht_count_by_cond_size [gtest_enum.py:115-129] *)
Definition expected_jht_count_by_cond_size (M j : nat) : list (nat * nat) :=
  let d := assoc_set Nat.eqb j (comb (M - j) 2) [] in
  let d := if 1 <=? j then assoc_set Nat.eqb (j - 1) (j * (M - j)) d else d in
  if 2 <=? j then assoc_set Nat.eqb (j - 2) (comb j 2) d else d.
(** expected_total_counts_for_jht_size; M * (M - 1) is even [gtest_enum.py:132-133] *)
Definition expected_total_counts_for_jht_size (M j : nat) : nat := M * (M - 1) / 2.
(** the number printed as 'expected tests': half of this [gtest_enum.py:177-178] *)
Definition expected_tests_twice (M : nat) : nat := M * (M - 1) * 2 ^ (M - 2).

(** for insertion into a list of entries sorted by key [gtest_enum.py:208] *)
Fixpoint insert_entry {V} (e : nat * V) (l : list (nat * V)) : list (nat * V) :=
  match l with [] => [e] | f :: l' => if fst e <=? fst f then e :: l else f :: insert_entry e l' end.
(** sorted(flat_summary.items()): the keys are distinct [gtest_enum.py:208] *)
Definition sort_entries {V} (l : list (nat * V)) : list (nat * V) := fold_right insert_entry [] l.
(** one block of the report on the flattened summary: the size of the terms, the total and the expected
    total, and for each size of conditioning set the number of tests and the expected one
    [gtest_enum.py:208-216] *)
Definition block := (nat * nat * nat * list (nat * nat * nat))%type.
(** sum [gtest_enum.py:211] *)
Definition sum_values (d : list (nat * nat)) : nat := fold_left (fun s e => s + snd e) d 0.
(** one pass of the loop [gtest_enum.py:208-215] *)
Definition report_block (M : nat) (e : nat * list (nat * nat)) : res block :=
  let expected := expected_jht_count_by_cond_size M (fst e) in
  lines <- mapM (fun cn => match assoc Nat.eqb (fst cn) expected with
                           | Some x => Ok (fst cn, snd cn, x)
                           | None => Err KeyError
                           end) (snd e) ;;
  Ok (fst e, sum_values (snd e), expected_total_counts_for_jht_size M (fst e), lines).
(** 'flat-index-summary' [gtest_enum.py:205-216] *)
Definition flat_index_summary (it : list nat -> list nat) (features : list nat) : res (list block) :=
  flat <- validate_and_flatten_summary (make_jht_index_summary (snd (collect (iter_tests it features)))) ;;
  mapM (report_block (length features)) (sort_entries flat).
