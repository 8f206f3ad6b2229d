(** C01-C07: the AD-tree and contingency-tree properties.  Statements only. *)
From Coq Require Import Reals.
From Verif Require Import Base AD_Model AD_Query_Model AD_Spec AD_Proofs AD_CT_Proofs AD_More_Proofs AD_Tables_Proofs AD_Examples.
Open Scope Z_scope.

(** C01 *)
Theorem C01_ad_tree_counts_exact : forall D, wf_dataset D -> threshold_ok D ->
  exists t, build_tree D false = Ok t /\
    forall q, wf_query D q -> query_count D false q t = Ok (count_matching D q, t).
Proof. exact static_exact. Qed.
Print Assumptions C01_ad_tree_counts_exact.
Example C01_nonvacuous : wf_dataset (Dex 3) /\ threshold_ok (Dex 3) /\ wf_query (Dex 3) qex /\ count_matching (Dex 3) qex = 2.
Proof. split; [apply Dex_wf|]. split; [apply Dex_threshold|]. split; [apply qex_wf|]. vm_compute. reflexivity. Qed.

(** C02: any sequence of counts, count tables and pickling round trips, on a dynamic tree *)
Theorem C02_dynamic_tree_history_exact : forall D, wf_dataset D -> no_minus_one D -> threshold_ok D ->
  exists t, build_tree D true = Ok t /\
    forall calls, Forall (wf_call D) calls ->
      exists answers t', do_calls D true calls t = Ok (answers, t') /\ Forall2 (answer_exact D) calls answers.
Proof. exact (fun D => history_exact D true). Qed.
Print Assumptions C02_dynamic_tree_history_exact.
(** ... where no restriction on the values is needed if only counts are asked for *)
Theorem C02_dynamic_tree_counts_history_exact : forall D, wf_dataset D -> threshold_ok D ->
  exists t, build_tree D true = Ok t /\
    forall calls, Forall (fun c => wf_call D c /\ forall vars, c <> CCounts vars) calls ->
      exists answers t', do_calls D true calls t = Ok (answers, t') /\ Forall2 (answer_exact D) calls answers.
Proof. exact (fun D => history_counts_exact D true). Qed.
Print Assumptions C02_dynamic_tree_counts_history_exact.
Example C02_nonvacuous : wf_dataset (Dex 3) /\ no_minus_one (Dex 3) /\ threshold_ok (Dex 3) /\ Forall (wf_call (Dex 3)) history_ex.
Proof. split; [apply Dex_wf|]. split; [apply Dex_no_minus_one|]. split; [apply Dex_threshold|]. apply history_ex_wf. Qed.

(** C03: static and dynamic trees, after any history *)
Theorem C03_pmf_is_empirical_distribution : forall D dyn, wf_dataset D -> no_minus_one D -> threshold_ok D -> rows D <> [] ->
  exists t, build_tree D dyn = Ok t /\
    forall calls answers t', Forall (wf_call D) calls -> do_calls D dyn calls t = Ok (answers, t') ->
    forall vars, vars <> [] -> NoDup vars -> (forall c, In c vars -> (c < ncols D)%nat) ->
    exists pmf t'' cols, make_pmf D dyn vars t' = Ok (pmf, t'') /\
      Permutation vars cols /\ StronglySorted lt cols /\
      NoDup (map fst pmf) /\
      (forall key p, In (key, p) pmf -> length key = length vars /\ p = empirical D cols key) /\
      (forall key, length key = length vars -> ~ In key (map fst pmf) -> empirical D cols key = 0%R) /\
      rsum (map snd pmf) = 1%R.
Proof. exact pmf_exact. Qed.
Print Assumptions C03_pmf_is_empirical_distribution.
Example C03_nonvacuous : wf_dataset (Dex 3) /\ no_minus_one (Dex 3) /\ threshold_ok (Dex 3) /\ rows (Dex 3) <> [].
Proof. split; [apply Dex_wf|]. split; [apply Dex_no_minus_one|]. split; [apply Dex_threshold|]. discriminate. Qed.
(** ... but with a value -1 in the data a key loses a component *)
Theorem C03_pmf_with_value_minus_one_refuted : exists D, wf_dataset D /\ threshold_ok D /\
  exists t d t', build_tree D false = Ok t /\ make_counts D false [0;1]%nat t = Ok (d, t') /\ In ([5], Some 1) d.
Proof. exists Dm1. split; [apply Dm1_wf|]. split; [unfold threshold_ok; simpl; lia|]. apply Dm1_bad. Qed.
Print Assumptions C03_pmf_with_value_minus_one_refuted.

(** C04: a static tree that is pickled and reloaded at any moments of its life *)
Theorem C04_pickled_tree_history_exact : forall D, wf_dataset D -> no_minus_one D -> threshold_ok D ->
  exists t, build_tree D false = Ok t /\
    forall calls, Forall (wf_call D) calls ->
      exists answers t', do_calls D false calls t = Ok (answers, t') /\ Forall2 (answer_exact D) calls answers.
Proof. exact (fun D => history_exact D false). Qed.
Print Assumptions C04_pickled_tree_history_exact.
(** without leaf lists the reloaded tree answers for D even when its matrix is replaced by any D' *)
Theorem C04_reloaded_tree_needs_no_dataset : forall D D', wf_dataset D -> threshold D <= 0 ->
  exists t, build_tree D false = Ok t /\
   forall q, wf_query D q -> exists t', query_count D' false q (pickle_roundtrip false t) = Ok (count_matching D q, t').
Proof. exact static_pickle_no_dataset. Qed.
Print Assumptions C04_reloaded_tree_needs_no_dataset.
Example C04_nonvacuous : wf_dataset (Dex 0) /\ threshold (Dex 0) <= 0 /\ In CReload history_ex.
Proof. split; [apply Dex_wf|]. split; [simpl; lia|]. simpl; tauto. Qed.

(** C05 *)
Theorem C05_conditional_probability_exact : forall D dyn, wf_dataset D -> threshold_ok D ->
  exists t, build_tree D dyn = Ok t /\
    forall values given, wf_query D values -> wf_query D given -> consistent given values ->
    let both := Z.of_nat (length (filter (fun row => row_agrees given row && row_agrees values row)%bool (rows D))) in
    let cond := count_matching D given in
    (cond <> 0 -> exists t', query_prob D dyn values given t = Ok ((IZR both / IZR cond)%R, t') /\ (0 <= IZR both / IZR cond <= 1)%R) /\
    (cond = 0 -> query_prob D dyn values given t = Err ZeroDivisionError).
Proof. exact prob_exact. Qed.
Print Assumptions C05_conditional_probability_exact.
(** ... and after any history of counts, count tables and reloads (a query is itself two counts) *)
Theorem C05_conditional_probability_after_history : forall D dyn, wf_dataset D -> no_minus_one D -> threshold_ok D ->
  exists t, build_tree D dyn = Ok t /\
    forall calls answers t', Forall (wf_call D) calls -> do_calls D dyn calls t = Ok (answers, t') ->
    forall values given, wf_query D values -> wf_query D given -> consistent given values ->
    let both := Z.of_nat (length (filter (fun row => row_agrees given row && row_agrees values row)%bool (rows D))) in
    let cond := count_matching D given in
    (cond <> 0 -> exists t'', query_prob D dyn values given t' = Ok ((IZR both / IZR cond)%R, t'') /\ (0 <= IZR both / IZR cond <= 1)%R) /\
    (cond = 0 -> query_prob D dyn values given t' = Err ZeroDivisionError).
Proof. exact prob_history. Qed.
Print Assumptions C05_conditional_probability_after_history.
(** P(a, b | g) = P(a | b, g) * P(b | g) for queries on different columns *)
Theorem C05_chain_rule : forall D dyn, wf_dataset D -> no_minus_one D -> threshold_ok D ->
  exists t, build_tree D dyn = Ok t /\
    forall calls answers t', Forall (wf_call D) calls -> do_calls D dyn calls t = Ok (answers, t') ->
    forall a b g, wf_query D (a ++ b ++ g) -> count_matching D (b ++ g) <> 0 ->
    exists p1 p2 p3 t1 t2 t3, query_prob D dyn (a ++ b) g t' = Ok (p1, t1) /\ query_prob D dyn a (b ++ g) t' = Ok (p2, t2) /\
      query_prob D dyn b g t' = Ok (p3, t3) /\ p1 = (p2 * p3)%R.
Proof. exact prob_chain. Qed.
Print Assumptions C05_chain_rule.
Example C05_chain_nonvacuous : wf_query (Dex 3) ([(0%nat, 0)] ++ [(2%nat, 5)] ++ [(1%nat, 1)]) /\ count_matching (Dex 3) ([(2%nat, 5)] ++ [(1%nat, 1)]) = 3.
Proof.
  split; [|vm_compute; reflexivity]. split; [repeat constructor; simpl; intuition congruence|].
  intros c v H. simpl in H. destruct H as [H|[H|[H|[]]]]; injection H as <- _; simpl; lia.
Qed.
Example C05_nonvacuous : count_matching (Dex 3) [(1%nat, 1)] = 5 /\ consistent [(1%nat, 1)] [(0%nat, 0)].
Proof. split; [vm_compute; reflexivity|]. intros c v w [E|[]] [E'|[]]. inversion E; inversion E'; subst. discriminate. Qed.

(** C06: the full claim "every threshold is usable" fails for every dataset with fewer rows than
    the threshold *)
Theorem C06_threshold_above_row_count_refuted : forall D dyn, Z.of_nat (length (rows D)) < threshold D ->
  exists t, build_tree D dyn = Ok t /\
    (forall q, q <> [] -> query_count D dyn q t = Err TypeError) /\
    (forall vars, vars <> [] -> (forall c, In c vars -> (c < ncols D)%nat) -> make_counts D dyn vars t = Err TypeError).
Proof. exact root_leaf_fails. Qed.
Print Assumptions C06_threshold_above_row_count_refuted.
Example C06_nonvacuous : Z.of_nat (length (rows (Dex 8))) < threshold (Dex 8).
Proof. simpl. lia. Qed.

(** C07 *)
Theorem C07_in_place_arithmetic_pointwise : forall op L t o, ct_ok L t -> ct_ok L o ->
  exists t', combine_in_place op t o = Ok t' /\ ct_ok L t' /\ ct_value t' = ct_value t /\
    (forall ks, length ks = L ->
        look t' ks = match look t ks with
                     | None => None
                     | Some a => Some (match look o ks with Some b => op a b | None => a end) end).
Proof. exact combine_ok. Qed.
Print Assumptions C07_in_place_arithmetic_pointwise.
Theorem C07_arithmetic_pointwise : forall op L t o, ct_ok L t -> ct_ok L o -> ct_full t ->
  exists t', combine_new op t o = Ok t' /\ ct_ok L t' /\ ct_value t' = ct_value t /\ ct_full t' /\
    (forall ks, length ks = L ->
        look t' ks = match look t ks with
                     | None => None
                     | Some a => Some (match look o ks with Some b => op a b | None => a end) end).
Proof. exact combine_new_ok. Qed.
Print Assumptions C07_arithmetic_pointwise.
(** the four operations as named in the code: on the keys of the left operand, sum and difference
    (a key missing on the right counts as 0); no other keys *)
Theorem C07_sum_and_subtract : forall L t o, ct_ok L t -> ct_ok L o ->
  (exists t', ct_sum_in_place t o = Ok t' /\ ct_ok L t' /\ ct_value t' = ct_value t /\
     forall ks, length ks = L -> (look t' ks <> None <-> look t ks <> None) /\ (look t ks <> None -> look0 t' ks = look0 t ks + look0 o ks)) /\
  (exists t', ct_subtract_in_place t o = Ok t' /\ ct_ok L t' /\ ct_value t' = ct_value t /\
     forall ks, length ks = L -> (look t' ks <> None <-> look t ks <> None) /\ (look t ks <> None -> look0 t' ks = look0 t ks - look0 o ks)) /\
  (ct_full t ->
   (exists t', ct_sum t o = Ok t' /\ ct_ok L t' /\ ct_value t' = ct_value t /\
      forall ks, length ks = L -> (look t' ks <> None <-> look t ks <> None) /\ (look t ks <> None -> look0 t' ks = look0 t ks + look0 o ks)) /\
   (exists t', ct_subtract t o = Ok t' /\ ct_ok L t' /\ ct_value t' = ct_value t /\
      forall ks, length ks = L -> (look t' ks <> None <-> look t ks <> None) /\ (look t ks <> None -> look0 t' ks = look0 t ks - look0 o ks))).
Proof. exact four_operations. Qed.
Print Assumptions C07_sum_and_subtract.
Theorem C07_subtraction_exact : forall L t o, ct_ok L t -> ct_ok L o ->
  (forall ks, length ks = L -> look t ks = None -> look0 o ks = 0) ->
  exists t', ct_subtract_in_place t o = Ok t' /\ ct_ok L t' /\
    forall ks, length ks = L -> look0 t' ks = look0 t ks - look0 o ks.
Proof. exact subtract_exact_lemma. Qed.
Print Assumptions C07_subtraction_exact.
Theorem C07_sum_drops_keys_refuted : exists t o t' o', ct_ok 1 t /\ ct_ok 1 o /\
  ct_sum t o = Ok t' /\ ct_sum o t = Ok o' /\ look0 o [2] = 3 /\ look0 t' [2] = 0 /\ look0 o' [2] = 3.
Proof.
  exists ct1, ct2. eexists _, _. split; [apply ct1_ok|]. split; [apply ct2_ok|].
  repeat (split; [vm_compute; reflexivity|]). vm_compute. reflexivity.
Qed.
Print Assumptions C07_sum_drops_keys_refuted.
Example C07_nonvacuous : ct_ok 1 ct1 /\ ct_full ct1 /\ ct_ok 1 ct2.
Proof. exact (conj (proj1 ct1_ok) (conj (proj2 ct1_ok) (proj1 ct2_ok))). Qed.
