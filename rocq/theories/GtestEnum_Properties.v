(** C86: the enumeration of the conditional independence tests over a set of features, and of the joint
    entropy terms they need (experiments/gtest_enum.py). *)
From Verif Require Import Base MB_Model MB_Cache_Proofs Sources_Model Sources_Proofs GtestEnum_Model GtestEnum_Spec
  GtestEnum_Proofs GtestEnum_Count_Proofs GtestEnum_Report_Proofs.
Open Scope nat_scope.

(** [it] is the order in which Python walks through a set. *)
(** Every test is enumerated exactly once, however the sets are walked through. *)
Theorem C86_every_test it F : (forall l, Permutation (it l) l) -> NoDup F ->
  NoDup (iter_tests it F) /\ forall t, In t (iter_tests it F) <-> is_test F t.
Proof. intros P N. split; [apply iter_tests_NoDup; assumption|]. intros t. apply iter_tests_In; assumption. Qed.

(** The printed number of tests is the printed expectation, 1/2 M (M-1) 2^(M-2). *)
Theorem C86_number it F : (forall l, Permutation (it l) l) -> NoDup F ->
  2 * length (iter_tests it F) = expected_tests_twice (length F).
Proof.
  intros P N. destruct (C86_every_test it F P N) as (Nt & H).
  rewrite (exactly_length _ _ _ (number_all F N) Nt) by (intros t; rewrite H; tauto).
  unfold expected_tests_twice, pairs_of. rewrite Nat.mul_assoc. f_equal.
  symmetry. apply Nat.div_exact; [lia|]. destruct (length F) as [|m]; [reflexivity|]. replace (S m - 1) with m by lia.
  destruct (Nat.Even_or_Odd m) as [(k & ->)|(k & ->)].
  - replace (S (2 * k) * (2 * k)) with ((S (2 * k) * k) * 2) by lia. apply Nat.mod_mul. lia.
  - replace (S (2 * k + 1) * (2 * k + 1)) with (((k + 1) * (2 * k + 1)) * 2) by lia. apply Nat.mod_mul. lia.
Qed.

(** The number printed for each size of conditioning set: a pair, and k of the other features. *)
Theorem C86_by_size it F k : (forall l, Permutation (it l) l) -> NoDup F ->
  count_tests_of_cond_set_size (iter_tests it F) k = pairs_of (length F) * choose (length F - 2) k.
Proof.
  intros P N. destruct (C86_every_test it F P N) as (Nt & H).
  assert (G : forall l s, fold_left (fun count t => if length (tZ t) =? k then S count else count) l s =
                          s + length (filter (fun t => length (tZ t) =? k) l)).
  { induction l as [|t l IH]; intros s; cbn [fold_left filter]; [cbn [length]; lia|]. rewrite IH. destruct (length (tZ t) =? k); cbn [length]; lia. }
  unfold count_tests_of_cond_set_size. rewrite G. cbn [Nat.add].
  apply (exactly_length _ _ _ (number_size F k N)); [apply NoDup_filter; assumption|].
  intros t. rewrite filter_In, H, Nat.eqb_eq. tauto.
Qed.

(** Each test needs four different terms. *)
Theorem C86_four F t : is_test F t -> NoDup (joint_entropy_terms t) /\ length (joint_entropy_terms t) = 4 /\
  forall J, StronglySorted lt J -> (In J (joint_entropy_terms t) <-> needs t J).
Proof.
  intros T. split; [exact (terms_NoDup F t T)|]. split; [reflexivity|]. intros J SJ. apply terms_needs; [assumption|apply T].
Qed.

(** How many tests need H(J): one for each pair of features, by the size of the conditioning set. *)
Theorem C86_terms F J : NoDup F -> StronglySorted lt J -> incl J F ->
  let M := length F in let j := length J in
  exactly (M * (M - 1) / 2) (fun t => is_test F t /\ needs t J) /\
  exactly ((M - j) * (M - j - 1) / 2) (fun t => is_test F t /\ needs t J /\ length (tZ t) = j) /\
  exactly (j * (M - j)) (fun t => is_test F t /\ needs t J /\ length (tZ t) + 1 = j) /\
  exactly (j * (j - 1) / 2) (fun t => is_test F t /\ needs t J /\ length (tZ t) + 2 = j) /\
  forall t, is_test F t -> needs t J -> length (tZ t) <= j <= length (tZ t) + 2.
Proof.
  intros N SJ IJ M j. split.
  { destruct (need_total F J N SJ IJ) as (l & Nl & L & H). exists l. split; [assumption|]. split; [exact L|]. intros t. rewrite H. tauto. }
  split; [exact (need_none F J N SJ IJ)|]. split; [exact (need_one F J N SJ IJ)|]. split; [exact (need_both F J N SJ IJ)|].
  intros t T Ne. pose proof (needing_size F J SJ t T Ne) as E. unfold j.
  destruct (inb J (tX t)), (inb J (tY t)); lia.
Qed.

(** The counter and the index of the terms: each set of features is a key with M (M-1) / 2 tests (if there are two
    features at all), its tests are those that need it, and nothing else is a key. *)
Theorem C86_index it F J : (forall l, Permutation (it l) l) -> NoDup F -> StronglySorted lt J ->
  let '(counter, index) := collect (iter_tests it F) in
  (incl J F -> 2 <= length F ->
    assoc set_eqb J counter = Some (length F * (length F - 1) / 2) /\
    exists ts, assoc set_eqb J index = Some ts /\ NoDup ts /\ forall t, In t ts <-> is_test F t /\ needs t J) /\
  (~ incl J F \/ length F < 2 -> assoc set_eqb J counter = None /\ assoc set_eqb J index = None).
Proof.
  intros P N SJ. destruct (collect (iter_tests it F)) as (counter, index) eqn:E.
  destruct (index_facts it P F N) as (_ & H). destruct (H J) as (H1 & H2). rewrite E in H1, H2. cbn [fst snd] in *.
  destruct (T_filter it P F N J SJ) as (Nf & Hf). split.
  - intros IJ L2. pose proof (T_total it P F N J SJ IJ) as Tt. fold (pairs_of (length F)).
    assert (Pos : 0 < pairs_of (length F)).
    { unfold pairs_of. apply Nat.div_str_pos. nia. }
    rewrite H1, H2, Tt. destruct (filter (has J) (iter_tests it F)) as [|t l] eqn:Ef; [cbn [length] in Tt; lia|].
    split; [destruct (pairs_of (length F)); [lia|reflexivity]|].
    exists (t :: l). split; [reflexivity|]. split; assumption.
  - intros C. assert (Ef : filter (has J) (iter_tests it F) = []).
    { destruct (filter (has J) (iter_tests it F)) as [|t l] eqn:Ef; [reflexivity|]. exfalso.
      assert (Ne : filter (has J) (iter_tests it F) <> []) by (rewrite Ef; discriminate).
      destruct (term_of_tests it P F N J Ne) as (_ & IJ). destruct C as [C|C]; [contradiction|].
      pose proof (T_total it P F N J SJ IJ) as Tt. rewrite Ef in Tt. cbn [length] in Tt.
      unfold pairs_of in Tt. destruct (length F) as [|[|m]]; [discriminate Tt|discriminate Tt|lia]. }
    rewrite H1, H2, Ef. split; reflexivity.
Qed.

(** The report: the assertion that terms of one size are needed alike never fails and no size is missing from the expected
    counts; there is a block for each size 0..M, every printed count is the true one and equals the expected one
    printed next to it, and no line is missing. *)
Theorem C86_report it F : (forall l, Permutation (it l) l) -> NoDup F ->
  exists blocks, flat_index_summary it F = Ok blocks /\
  map (fun b : block => fst (fst (fst b))) blocks = (if 2 <=? length F then seq 0 (S (length F)) else []) /\
  forall j total expected_total lines, In (j, total, expected_total, lines) blocks ->
    expected_total = total /\
    forall J, StronglySorted lt J -> incl J F -> length J = j ->
      exactly total (fun t => is_test F t /\ needs t J) /\
      (forall c n x, In (c, n, x) lines -> x = n /\ exactly n (fun t => is_test F t /\ needs t J /\ length (tZ t) = c)) /\
      (forall t, is_test F t -> needs t J -> exists n, In (length (tZ t), n, n) lines).
Proof.
  intros P N. destruct (report_ok it P F N) as (blocks & E & O & K). exists blocks. split; [exact E|]. split; [exact K|].
  intros j total et lines I. rewrite Forall_forall in O. destruct (O _ I) as (_ & Et & Ex & Ln).
  split; [assumption|]. intros J SJ IJ LJ.
  assert (XE : forall c, exactly (ex (length F) j c) (fun t => is_test F t /\ needs t J /\ length (tZ t) = c)).
  { intros c. destruct (T_filter it P F N J SJ) as (Nf & Hf).
    exists (filter (fun t => c =? length (tZ t)) (filter (has J) (iter_tests it F))). split; [apply NoDup_filter; assumption|].
    split; [rewrite (T_size it P F N J c SJ IJ), LJ; reflexivity|]. intros t. rewrite filter_In, Hf, Nat.eqb_eq. intuition congruence. }
  split; [rewrite Et; apply (C86_terms F J N SJ IJ)|]. split.
  - intros c n x H. apply Ln in H. destruct H as (-> & -> & _). split; [reflexivity|]. apply XE.
  - intros t T Ne. exists (ex (length F) j (length (tZ t))). apply Ln. split; [reflexivity|]. split; [reflexivity|].
    destruct (XE (length (tZ t))) as (l & _ & L & H). assert (In t l) as It by (apply H; auto).
    destruct l; [destruct It|cbn [length] in L; lia].
Qed.

(** The features are different letters, as many as asked for. *)
Theorem C86_features M : NoDup (make_features M) /\ length (make_features M) = M.
Proof. split; [apply seq_NoDup|apply seq_length]. Qed.

(** So for every M the script's report ends without an exception with everything as expected. *)
Theorem C86_all M it : (forall l, Permutation (it l) l) ->
  2 * length (iter_tests it (make_features M)) = expected_tests_twice M /\
  exists blocks, flat_index_summary it (make_features M) = Ok blocks /\
    length blocks = (if 2 <=? M then S M else 0) /\
    Forall (fun b : block => let '(_, total, expected_total, lines) := b in
              total = expected_total /\ forall c n x, In (c, n, x) lines -> n = x) blocks.
Proof.
  intros P. destruct (C86_features M) as (N & L). split.
  - rewrite (C86_number it _ P N), L. reflexivity.
  - destruct (report_ok it P (make_features M) N) as (blocks & E & O & K). exists blocks. split; [exact E|]. rewrite L in K. split.
    + rewrite <- (map_length (fun b : block => fst (fst (fst b))) blocks), K. destruct (2 <=? M); [apply seq_length|reflexivity].
    + eapply Forall_impl; [|exact O]. intros (((j, total), et), lines) (_ & _ & Et & Ln). split; [symmetry; exact Et|].
      intros c n x H. apply Ln in H. symmetry. apply H.
Qed.

(** Three features, with the set walked through backwards: six tests, four sizes of terms. *)
Theorem C86_example :
  (forall l : list nat, Permutation (rev l) l) /\ NoDup (make_features 3) /\
  iter_tests (@rev nat) (make_features 3) =
    [Test 65 66 []; Test 65 67 []; Test 66 67 []; Test 66 67 [65]; Test 65 67 [66]; Test 65 66 [67]] /\
  needs (Test 65 67 [66]) [66; 67] /\
  flat_index_summary (@rev nat) (make_features 3) =
    Ok [(0, 3, 3, [(0, 3, 3)]); (1, 3, 3, [(0, 2, 2); (1, 1, 1)]); (2, 3, 3, [(0, 1, 1); (1, 2, 2)]); (3, 3, 3, [(1, 3, 3)])].
Proof.
  split; [intros l; apply Permutation_sym, Permutation_rev|]. split; [apply seq_NoDup|]. split; [vm_compute; reflexivity|].
  split; [right; left; intros v; cbn [tZ tY In]; intuition congruence|]. vm_compute. reflexivity.
Qed.
