(** C18-C21, C49: Bayesian networks.  Statements, with their proofs from the other files, and the
    concrete networks that meet their hypotheses. *)
From Coq Require Import Reals Relations Lra.
From Verif Require Import Base Key_Model Key_Spec Key_Proofs PMF_Model PMF_Spec Prob_Spec Table_Spec BN_Model Prob_Proofs PMF_Proofs Table_Proofs BN_Spec BN_Order_Proofs BN_Final_Proofs BN_Sum_Proofs BN_Joint_Proofs BN_Table_Proofs BN_Sub_Proofs BN_Partial_Proofs BN_Sampling_Spec BN_Sampling_Proofs BN_More_Proofs.
Open Scope nat_scope.

(** ** The example: 2 -> 0 -> 1 <- 2, binary variables with values 10 and 11 *)
Definition n2 : node := {| nname := 2; nID := None; nvalues := [10; 11]; nparents := []; nprobs := [(None, [1/4; 3/4]%R)] |}.
Definition n0 : node := {| nname := 0; nID := None; nvalues := [10; 11]; nparents := [2];
  nprobs := [(Some [10], [1/3; 2/3]%R); (Some [11], [1; 0]%R)] |}.
Definition n1 : node := {| nname := 1; nID := None; nvalues := [10; 11]; nparents := [0; 2];
  nprobs := [(Some [10; 10], [1/2; 1/2]%R); (Some [10; 11], [1/5; 4/5]%R); (Some [11; 10], [0; 1]%R); (Some [11; 11], [1; 0]%R)] |}.
Definition sprinkler : list node := [n0; n1; n2].

Lemma sprinkler_wf : well_formed sprinkler.
Proof.
  split; [cbn; repeat constructor; cbn; intuition lia|]. intros p c (n & Hn & _ & Hp). cbn in Hn. destruct Hn as [<- |[<- |[<- |[]]]]; cbn in Hp; cbn; intuition.
Qed.
Lemma sprinkler_acyclic : acyclic sprinkler.
Proof.
  apply (topological_acyclic sprinkler sprinkler_wf [2; 0; 1]). split; [cbn; apply (perm_trans (perm_swap _ _ _)); apply perm_skip, perm_swap|].
  intros l1 v l2 E p (n & Hn & En & Hp).
  assert (G : In (p, v) [(2, 0); (0, 1); (2, 1)]) by (cbn in Hn; destruct Hn as [<- |[<- |[<- |[]]]]; cbn in En, Hp; subst v; cbn; intuition (subst; auto)).
  destruct l1 as [|a [|c [|d l1]]]; cbn in E; injection E as; subst; cbn in G; cbn; intuition (try congruence).
Qed.
Lemma sprinkler_unnumbered : unnumbered sprinkler.
Proof. intros n Hn. cbn in Hn. destruct Hn as [<- |[<- |[<- |[]]]]; reflexivity. Qed.
Ltac pick := first [left; reflexivity | right; pick].
Lemma sprinkler_tables : complete_tables sprinkler.
Proof.
  intros n Hn. cbn in Hn. destruct Hn as [<- |[<- |[<- |[]]]]; cbn [n0 n1 n2 nvalues nparents nprobs map fst];
    (split; [discriminate|]; split; [repeat constructor; cbn; intuition lia|]; split; [repeat constructor; cbn; intuition lia|];
     split; [repeat constructor; cbn; intuition discriminate|]; split).
  - intros vals H. inversion H as [|? v ? l H1 H2]; subst. inversion H2; subst. cbn in H1. destruct H1 as [<- |[<- |[]]]; eexists; (split; [pick|reflexivity]).
  - intros k row [E|[E|[]]]; injection E as <- <-; eexists; (split; [|reflexivity]); repeat apply Forall2_cons; try apply Forall2_nil; cbn; auto.
  - intros vals H. inversion H as [|? v ? l H1 H2]; subst. inversion H2 as [|? w ? l' H3 H4]; subst. inversion H4; subst. cbn in H1, H3.
    destruct H1 as [<- |[<- |[]]]; destruct H3 as [<- |[<- |[]]]; eexists; (split; [pick|reflexivity]).
  - intros k row [E|[E|[E|[E|[]]]]]; injection E as <- <-; eexists; (split; [|reflexivity]); repeat apply Forall2_cons; try apply Forall2_nil; cbn; auto.
  - intros vals H. inversion H; subst. eexists. split; [left; reflexivity|reflexivity].
  - intros k row [E|[]]; injection E as <- <-. exists []. split; [constructor|reflexivity].
Qed.
Lemma sprinkler_stochastic : stochastic sprinkler.
Proof.
  intros n k row Hn Hin. cbn in Hn. destruct Hn as [<- |[<- |[<- |[]]]]; cbn in Hin; intuition; match goal with H : (_, _) = (_, _) |- _ => injection H as <- <- end;
    cbn in *; intuition (subst; lra).
Qed.
Definition cycle : list node :=
  [{| nname := 0; nID := None; nvalues := [7]; nparents := [1]; nprobs := [(Some [7], [1%R])] |};
   {| nname := 1; nID := None; nvalues := [7]; nparents := [0]; nprobs := [(Some [7], [1%R])] |}].

(** A network as it is before finalize: distinct names, known parents, complete tables, no IDs. *)
Definition fresh_network (ns : list node) : Prop := well_formed ns /\ complete_tables ns /\ unnumbered ns.
Example sprinkler_fresh : fresh_network sprinkler /\ acyclic sprinkler /\ stochastic sprinkler.
Proof. exact (conj (conj sprinkler_wf (conj sprinkler_tables sprinkler_unnumbered)) (conj sprinkler_acyclic sprinkler_stochastic)). Qed.

Lemma fresh_IDs ns : fresh_network ns -> NoDup (map (id_for ns) (names ns)).
Proof. intros (Hwf & Ht & Hun). rewrite (un_ids ns Hwf Hun). apply seq_NoDup. Qed.
Lemma fresh_finalize ns : fresh_network ns -> acyclic ns -> exists b, final ns b /\ forall fuel, length ns <= fuel -> finalize fuel (new_bn ns) = Ok b.
Proof. intros H Hac. pose proof (fresh_IDs ns H). destruct H as (Hwf & Ht & Hun). apply finalize_exists; assumption. Qed.

(** ** C18 *)
Theorem C18_sampling_order : forall ns, well_formed ns -> acyclic ns ->
  exists ord, (forall fuel, length ns <= fuel -> detect_order fuel (new_bn ns) = Ok ord) /\
    Permutation ord (map nname ns) /\ forall l1 v l2, ord = l1 ++ v :: l2 -> forall p, parent_of ns p v -> In p l1.
Proof. intros ns Hwf Hac. destruct (detect_ok ns Hwf Hac) as (ord & E & Ht). exists ord. split; [exact E|]. exact Ht. Qed.
Print Assumptions C18_sampling_order.
Theorem C18_cycle_never_ends : forall ns, well_formed ns -> cyclic ns -> forall fuel, detect_order fuel (new_bn ns) = Err OutOfFuel.
Proof. intros ns Hwf Hc fuel. apply (detect_cyclic ns Hwf Hc fuel). Qed.
Theorem C18_terminates_iff_acyclic : forall ns, well_formed ns -> (exists fuel ord, detect_order fuel (new_bn ns) = Ok ord) <-> acyclic ns.
Proof.
  intros ns Hwf. split.
  - intros (fuel & ord & E). apply (detect_sound ns Hwf fuel ord E).
  - intros Hac. destruct (C18_sampling_order ns Hwf Hac) as (ord & E & _). exists (length ns), ord. apply E. lia.
Qed.
Theorem C18_finalize : forall ns, fresh_network ns ->
  (acyclic ns -> exists b, (forall fuel, length ns <= fuel -> finalize fuel (new_bn ns) = Ok b) /\ finalized b = true /\
     topological ns (order_nodes b)) /\
  (cyclic ns -> forall fuel, finalize fuel (new_bn ns) = Err OutOfFuel).
Proof.
  intros ns Hf. split.
  - intros Hac. destruct (fresh_finalize ns Hf Hac) as (b & Hb & E). exists b. split; [assumption|]. split; [apply (fin_final _ _ Hb)|apply (fin_order _ _ Hb)].
  - intros Hc. pose proof (fresh_IDs ns Hf). destruct Hf as (Hwf & Ht & Hun). apply finalize_cyclic; assumption.
Qed.
Example C18_sprinkler_order : detect_order 3 (new_bn sprinkler) = Ok [2; 0; 1].
Proof. reflexivity. Qed.
Example C18_cycle_nonvacuous : well_formed cycle /\ cyclic cycle.
Proof.
  split; [split; [cbn; repeat constructor; cbn; intuition lia|]|].
  - intros p c (n & Hn & _ & Hp). cbn in Hn. destruct Hn as [<- |[<- |[]]]; cbn in Hp; cbn; intuition.
  - exists 0. apply (t_trans _ _ _ 1); apply t_step; [exists (nth 1 cycle n0)|exists (nth 0 cycle n0)]; cbn; auto.
Qed.

(** ** C19 *)
(** the tuple of values that t's indices stand for *)
Definition values_at (ns : list node) (t : list nat) : list nat := map (fun v => value_at_index ns v (assignment ns t v)) (names ns).
Lemma shown_values ns t ai : well_formed ns -> In t (tuples ns) -> shown_tuple ns ai t = if ai then t else values_at ns t.
Proof. intros Hwf Hin. destruct ai; [apply (shown_index ns Hwf t Hin)|reflexivity]. Qed.
Theorem C19_joint_pmf : forall ns, fresh_network ns -> acyclic ns -> forall as_indices,
  exists b P, (forall fuel, length ns <= fuel -> finalize fuel (new_bn ns) = Ok b) /\
    (forall fuel, length ns < fuel -> create_joint_pmf fuel b as_indices = Ok P) /\
    variableIDs P = map Z.of_nat (seq 0 (length ns)) /\
    NoDup (map fst (probabilities P)) /\ length (probabilities P) = joint_pmf_size b /\
    (forall k r, In (k, r) (probabilities P) <->
       exists t, In t (tuples ns) /\ k = tuple_key (if as_indices then t else values_at ns t) /\ r = joint ns (assignment ns t)) /\
    (stochastic ns -> Sum (map snd (probabilities P)) = 1%R /\ forall k r, In (k, r) (probabilities P) -> (0 <= r)%R).
Proof.
  intros ns Hf Hac ai. destruct (fresh_finalize ns Hf Hac) as (b & Hb & E). destruct Hf as (Hwf & Ht & Hun).
  exists b. eexists. split; [exact E|]. split; [intros fuel Hl; apply (create_joint_ok ns Hwf Ht b Hb ai fuel Hl)|]. cbn [variableIDs probabilities].
  split; [rewrite (fin_IDs _ _ Hb), (un_ids ns Hwf Hun), (len_names ns); reflexivity|].
  split; [apply (joint_entries_NoDup ns Hwf Ht b Hb ai)|]. split; [rewrite (joint_entries_length ns Hwf Ht b Hb), (fin_size _ _ Hb); symmetry; apply size_tuples; apply Hwf|]. split.
  - intros k r. rewrite (joint_entries_In ns Hwf b Hb ai k r). split; intros (t & Hin & -> & ->); exists t; (split; [assumption|]); (split; [rewrite (shown_values ns t ai Hwf Hin); reflexivity|reflexivity]).
  - intros Hst. pose proof (space_probability ns Hwf Ht Hst _ (fin_order _ _ Hb)) as (Hpos & Hsum).
    assert (HP : Permutation (joint_entries ns b ai) (map (fun t => (tuple_key (shown_tuple ns ai t), joint ns (assignment ns t))) (tuples ns))).
    { apply NoDup_Permutation.
      - apply (NoDup_map_inv fst). apply (joint_entries_NoDup ns Hwf Ht b Hb).
      - apply (NoDup_map_inv fst). rewrite map_map. cbn [fst]. pose proof (joint_entries_NoDup ns Hwf Ht b Hb ai) as HN. apply NoDup_map_in; [|apply cartesian_NoDup].
        intros t t' H1 H2 Ek. destruct (tuple_env ns Hwf t H1) as (E1 & G1). destruct (tuple_env ns Hwf t' H2) as (E2 & G2). rewrite <- E1, <- E2. apply map_ext_in. intros v Hv. apply (keyof_inj ns Ht ai _ _ G1 G2); [exact Ek|]. apply (names_known ns). assumption.
      - intros [k r]. rewrite (joint_entries_In ns Hwf b Hb ai k r), in_map_iff. split; [intros (t & Hin & -> & ->); exists t; auto|intros (t & Ek & Hin); injection Ek as <- <-; exists t; auto]. }
    split.
    + rewrite (Permutation_map snd HP) || (assert (Es : Sum (map snd (joint_entries ns b ai)) = SumOf snd (joint_entries ns b ai)) by reflexivity; rewrite Es, (SumOf_perm snd _ _ HP), SumOf_map; exact Hsum).
    + intros k r Hin. apply (joint_entries_In ns Hwf b Hb ai k r) in Hin as (t & Hin & _ & ->). apply Hpos. assumption.
Qed.
Print Assumptions C19_joint_pmf.
(** looking values up: with two or more variables p() answers the product of the table entries *)
Theorem C19_lookup : forall ns b, fresh_network ns -> (exists fuel, finalize fuel (new_bn ns) = Ok b) -> stochastic ns -> length ns <> 1 ->
  exists P, (forall fuel, length ns < fuel -> create_joint_pmf fuel b true = Ok P) /\
  forall t, In t (tuples ns) -> pmf_p P (map (fun x => PInt (Z.of_nat x)) t) = joint ns (assignment ns t).
Proof.
  intros ns b Hf (fuel & E) Hst H1. pose proof (fresh_IDs ns Hf) as HI. destruct Hf as (Hwf & Ht & Hun). destruct (finalize_final ns Hwf Ht HI fuel b E) as (Hb & Hac).
  eexists. split; [intros fuel' Hl; apply (create_joint_ok ns Hwf Ht b Hb true fuel' Hl)|]. intros t Hin. set (P := {| probabilities := _; variableIDs := _; variable_IDs := _ |}).
  assert (HT := joint_table ns Hwf Ht b Hb P H1 eq_refl eq_refl). rewrite (table_p _ (space_probability ns Hwf Ht Hst _ (fin_order _ _ Hb)) _ _ _ _ HT).
  rewrite <- (pr1_tuple ns t Hin). f_equal. unfold leaves_list. clear. induction t as [|x t IH]; [reflexivity|]. cbn [map flat_map leaves app]. rewrite IH. reflexivity.
Qed.
(** with a single variable the keys are 1-tuples, which p() never looks up: it answers 0 *)
Theorem C19_single_variable_lookup_refuted : forall n, fresh_network [n] -> acyclic [n] ->
  exists b P, (forall fuel, 1 <= fuel -> finalize fuel (new_bn [n]) = Ok b) /\ (forall fuel, 1 < fuel -> create_joint_pmf fuel b true = Ok P) /\
    forall v, pmf_p P [PInt v] = 0%R.
Proof.
  intros n Hf Hac. destruct (C19_joint_pmf [n] Hf Hac true) as (b & P & E & EP & _ & _ & _ & Hin & _). exists b, P. split; [exact E|]. split; [exact EP|].
  intros v. unfold pmf_p. destruct (assoc _ _ _) as [r|] eqn:Ea; [|reflexivity]. exfalso. apply kassoc_In in Ea. rewrite process_key in Ea. cbn in Ea. apply Hin in Ea as (t & _ & Ek & _). discriminate.
Qed.
Example C19_nonvacuous : joint sprinkler (assignment sprinkler [0; 1; 1]) = (1 * (4/5) * (3/4))%R /\ In [0; 1; 1] (tuples sprinkler) /\ length (tuples sprinkler) = 8.
Proof. split; [unfold joint; cbn; lra|]. split; [cbn; auto 10|reflexivity]. Qed.
Example C19_single_nonvacuous : fresh_network [n2] /\ acyclic [n2].
Proof.
  assert (Hp : forall p v, ~ parent_of [n2] p v) by (intros p v (n & [<- |[]] & _ & [])). repeat split.
  - repeat constructor; cbn; intuition.
  - intros p c H. destruct (Hp p c H).
  - destruct H as [<- |[]]. discriminate.
  - destruct H as [<- |[]]. cbn. repeat constructor; cbn; intuition lia.
  - destruct H as [<- |[]]. constructor.
  - destruct H as [<- |[]]. repeat constructor; cbn; intuition.
  - destruct H as [<- |[]]. intros vals H. inversion H; subst. eexists. split; [left; reflexivity|reflexivity].
  - destruct H as [<- |[]]. intros k row [E|[]]; injection E as <- <-. exists []. split; [constructor|reflexivity].
  - intros m [<- |[]]. reflexivity.
  - intros v H. induction H as [x y H|]; [destruct (Hp x y H)|assumption].
Qed.

(** ** C20 *)
(** [P] is the marginal of the network's joint distribution for the variables with the IDs [req] *)
Definition is_marginal (ns : list node) (req : list Z) (P : pmf) : Prop :=
  is_table (network_space ns) req (fun t => components (map Z.of_nat (seq 0 (length ns))) req (map Z.of_nat t)) P.
Theorem C20_partial_joint : forall ns b, fresh_network ns -> stochastic ns -> (exists fuel, finalize fuel (new_bn ns) = Ok b) ->
  forall (iterate : list Z -> list Z) ids, (forall l, Permutation (iterate l) l) -> (forall i, In i ids -> i < length ns) ->
  (exists i j, In i ids /\ In j ids /\ i <> j) \/ (exists i p, In i ids /\ parent_of ns p (nth i (names ns) 0)) ->
  forall fuel, length ns + 1 < fuel ->
  exists P, create_partial_joint_pmf iterate fuel b ids = Ok P /\ is_marginal ns (map Z.of_nat (sort_nat (nodup Nat.eq_dec ids))) P.
Proof.
  intros ns b Hf Hst (fuel0 & E) iterate ids Hit Hids Htwo fuel Hl. pose proof (fresh_IDs ns Hf) as HI. destruct Hf as (Hwf & Ht & Hun). destruct (finalize_final ns Hwf Ht HI fuel0 b E) as (Hb & Hac).
  assert (Hne : ids <> []) by (intros ->; destruct Htwo as [(i & j & [] & _)|(i & p & [] & _)]).
  assert (HN : length (names ns) = length ns) by (apply (len_names ns)).
  destruct (partial_ok ns Hwf Ht Hun b Hb Hst iterate ids fuel Hit) as (P & EP & HP).
  - intros i Hi. rewrite HN. auto.
  - rewrite HN. assumption.
  - assumption.
  - assumption.
  - exists P. split; [assumption|]. cbv zeta in HP. unfold all_ids in HP. rewrite HN in HP. exact HP.
Qed.
Print Assumptions C20_partial_joint.
(** the other way: the joint PMF of the whole network with the other variables summed out *)
Lemma full_joint_summed ns b : fresh_network ns -> stochastic ns -> (exists fuel, finalize fuel (new_bn ns) = Ok b) ->
  forall ids over, (forall i, In i ids -> i < length ns) -> ids <> [] -> length ns <> 1 ->
  Permutation over (map Z.of_nat (filter (fun i => negb (mem i ids)) (seq 0 (length ns)))) ->
  exists J Q, (forall fuel, length ns < fuel -> create_joint_pmf fuel b true = Ok J) /\ foldM sum_over over J = Ok Q /\ is_marginal ns (map Z.of_nat (sort_nat (nodup Nat.eq_dec ids))) Q.
Proof.
  intros Hf Hst (fuel0 & E) ids over Hids Hne H1 Hperm. pose proof (fresh_IDs ns Hf) as HI. destruct Hf as (Hwf & Ht & Hun). destruct (finalize_final ns Hwf Ht HI fuel0 b E) as (Hb & Hac).
  eexists. assert (Ep := space_probability ns Hwf Ht Hst _ (fin_order _ _ Hb)).
  set (J := {| probabilities := joint_entries ns b true; variableIDs := map Z.of_nat (bn_IDs b); variable_IDs := None |}).
  assert (HT := joint_table ns Hwf Ht b Hb J H1 eq_refl eq_refl). assert (EI : bn_IDs b = seq 0 (length ns)) by (rewrite (fin_IDs _ _ Hb), (un_ids ns Hwf Hun), (len_names ns); reflexivity).
  rewrite EI in HT. set (all := map Z.of_nat (seq 0 (length ns))) in *.
  assert (HNa : NoDup all) by (apply FinFun.Injective_map_NoDup; [intros x y; lia|apply seq_NoDup]).
  assert (Hov : forall z, In z over <-> exists i, z = Z.of_nat i /\ i < length ns /\ ~ In i ids).
  { intros z. assert (Hz : In z over <-> In z (map Z.of_nat (filter (fun i => negb (mem i ids)) (seq 0 (length ns))))) by (split; apply Permutation_in; [|apply Permutation_sym]; assumption).
    rewrite Hz, in_map_iff. split.
    - intros (i & <- & Hi). apply filter_In in Hi as (Hi & Hm). apply in_seq in Hi. apply negb_true_iff, mem_false in Hm. exists i. split; [reflexivity|]. split; [lia|assumption].
    - intros (i & -> & Hi & Hm). exists i. split; [reflexivity|]. apply filter_In. split; [apply in_seq; lia|]. apply negb_true_iff, mem_false. assumption. }
  assert (Ereq : others all over = map Z.of_nat (sort_nat (nodup Nat.eq_dec ids))).
  { transitivity (map Z.of_nat (filter (fun i => mem i ids) (seq 0 (length ns)))).
    - unfold all, others. assert (G : forall m, (forall i, In i m -> i < length ns) -> filter (fun v => if in_dec Z.eq_dec v over then false else true) (map Z.of_nat m) = map Z.of_nat (filter (fun i => mem i ids) m)).
      { induction m as [|x m IHm]; intros Hm; [reflexivity|]. cbn [map filter]. destruct (in_dec Z.eq_dec (Z.of_nat x) over) as [Ho|Ho].
        - apply Hov in Ho as (j & Ej & _ & Hj). assert (x = j) by lia. subst j. rewrite (proj2 (mem_false x ids) Hj). apply IHm. intros i Hi. apply Hm. right; assumption.
        - destruct (in_dec Nat.eq_dec x ids) as [H|H].
          + rewrite (proj2 (mem_In x ids) H). cbn [map]. f_equal. apply IHm. intros i Hi. apply Hm. right; assumption.
          + exfalso. apply Ho. apply Hov. exists x. split; [reflexivity|]. split; [apply Hm; left; reflexivity|assumption]. }
      apply G. intros i Hi. apply in_seq in Hi. lia.
    - f_equal. apply sorted_unique.
      + assert (Hs : forall k a, StronglySorted lt (seq a k)).
        { induction k as [|k IH]; intros a; cbn [seq]; constructor; [apply IH|]. apply Forall_forall. intros y Hy. apply in_seq in Hy. lia. }
        specialize (Hs (length ns) 0). revert Hs. generalize (seq 0 (length ns)). intros l0 Hs. clear -Hs. induction Hs as [|x m Hs IH Hf]; cbn [filter]; [constructor|]. destruct (mem x ids); [|assumption]. constructor; [assumption|]. apply Forall_forall. intros y Hy. apply filter_In in Hy as (Hy & _). rewrite Forall_forall in Hf. auto.
      + apply sort_strict. apply NoDup_nodup.
      + intros x. rewrite filter_In, mem_In, sort_in, nodup_In, in_seq. split; [tauto|]. intros Hx. specialize (Hids x Hx). split; [lia|assumption]. }
  destruct (table_fold_sum (network_space ns) Ep over all _ J HT HNa) as (Q & EQ & HQ).
  - apply (Permutation_NoDup (Permutation_sym Hperm)). apply FinFun.Injective_map_NoDup; [intros x y; lia|]. apply NoDup_filter, seq_NoDup.
  - intros z Hz. apply Hov in Hz as (i & -> & Hi & _). apply in_map. apply in_seq. lia.
  - rewrite Ereq. destruct ids as [|i ids']; [congruence|]. intros En. apply map_eq_nil in En. assert (Hx : In i (sort_nat (nodup Nat.eq_dec (i :: ids')))) by (apply sort_in, nodup_In; left; reflexivity). rewrite En in Hx. destruct Hx.
  - exists Q. split; [intros fuel Hl; apply (create_joint_ok ns Hwf Ht b Hb true fuel Hl)|]. split; [exact EQ|]. unfold is_marginal. fold all. rewrite Ereq in HQ. exact HQ.
Qed.
Theorem C20_equals_summed_full_joint : forall ns b, fresh_network ns -> stochastic ns -> (exists fuel, finalize fuel (new_bn ns) = Ok b) ->
  forall (iterate : list Z -> list Z) ids over, (forall l, Permutation (iterate l) l) -> (forall i, In i ids -> i < length ns) ->
  (exists i j, In i ids /\ In j ids /\ i <> j) \/ (exists i p, In i ids /\ parent_of ns p (nth i (names ns) 0)) ->
  Permutation over (map Z.of_nat (filter (fun i => negb (mem i ids)) (seq 0 (length ns)))) ->
  forall fuel, length ns + 1 < fuel ->
  exists P J Q, create_partial_joint_pmf iterate fuel b ids = Ok P /\ create_joint_pmf fuel b true = Ok J /\ foldM sum_over over J = Ok Q /\
    variableIDs P = variableIDs Q /\ forall args, pmf_p P args = pmf_p Q args.
Proof.
  intros ns b Hf Hst Hfin iterate ids over Hit Hids Htwo Hperm fuel Hl. destruct (C20_partial_joint ns b Hf Hst Hfin iterate ids Hit Hids Htwo fuel Hl) as (P & EP & HP).
  assert (Hne : ids <> []) by (intros ->; destruct Htwo as [(i & j & [] & _)|(i & p & [] & _)]).
  assert (H1 : length ns <> 1).
  { intros H1. destruct ns as [|n [|m ns]]; try discriminate. destruct Htwo as [(i & j & Hi & Hj & Hij)|(i & p & Hi & Hp)].
    - apply Hids in Hi, Hj. cbn in Hi, Hj. lia.
    - destruct Hf as (Hwf & Ht & Hun). destruct Hfin as (f & E). destruct (finalize_final [n] Hwf Ht (fresh_IDs [n] (conj Hwf (conj Ht Hun))) f b E) as (_ & Hac).
      assert (Hk := proj2 Hwf p _ Hp). cbn in Hk. destruct Hk as [Hk|[]]. destruct Hp as (m & [<- |[]] & _ & Hp). rewrite <- Hk in Hp. apply (Hac (nname n)). apply t_step. exists n. split; [left; reflexivity|auto]. }
  destruct (full_joint_summed ns b Hf Hst Hfin ids over Hids Hne H1 Hperm) as (J & Q & EJ & EQ & HQ). exists P, J, Q. split; [exact EP|]. split; [apply EJ; lia|]. split; [exact EQ|].
  split; [rewrite (table_ids _ _ _ _ HP), (table_ids _ _ _ _ HQ); reflexivity|]. intros args.
  pose proof (fresh_IDs ns Hf) as HI. destruct Hf as (Hwf & Ht & Hun). destruct Hfin as (f & E). destruct (finalize_final ns Hwf Ht HI f b E) as (Hb & _).
  pose proof (space_probability ns Hwf Ht Hst _ (fin_order _ _ Hb)) as Hsp. rewrite (table_p _ Hsp _ _ _ args HP), (table_p _ Hsp _ _ _ args HQ). reflexivity.
Qed.
Print Assumptions C20_equals_summed_full_joint.
(** a single root variable: the table has 1-tuples as keys, and p() answers 0 for every value *)
Theorem C20_single_root_lookup_refuted : forall ns b, fresh_network ns -> (exists fuel, finalize fuel (new_bn ns) = Ok b) ->
  forall i, i < length ns -> (forall p, ~ parent_of ns p (nth i (names ns) 0)) ->
  forall iterate fuel, (forall l, Permutation (iterate l) l) -> length ns + 1 < fuel ->
  exists P, create_partial_joint_pmf iterate fuel b [i] = Ok P /\ forall v, pmf_p P [PInt v] = 0%R.
Proof.
  intros ns b Hf (fuel0 & E) i Hi Hroot iterate fuel Hit Hl. pose proof (fresh_IDs ns Hf) as HI. destruct Hf as (Hwf & Ht & Hun). destruct (finalize_final ns Hwf Ht HI fuel0 b E) as (Hb & Hac).
  assert (HN : length (names ns) = length ns) by (apply (len_names ns)).
  destruct (subnetwork_ok ns Hwf Ht Hun b Hb [i] fuel) as (l & sub & Esub & HNl & Hin & Hrest); [intros j [<- |[]]; lia|lia|]. cbv zeta in Hrest. set (ms := map (node_at ns) l) in *.
  destruct Hrest as (Hfin & Enames & HNm & Hinm & Hcl & HlN).
  assert (Hl1 : l = [i]).
  { assert (Hx : forall x, In x l <-> x = i).
    { intros x. rewrite Hin. unfold ancestral. split.
      - intros (j & [<- |[]] & [H|(_ & H)]); [assumption|]. exfalso. apply clos_trans_tn1_iff in H. inversion H as [? Hp|y ? Hp Hq]; subst; eapply Hroot; exact Hp.
      - intros ->. exists i. split; [left; reflexivity|left; reflexivity]. }
    destruct l as [|x [|y l']]; [destruct (proj2 (Hx i) eq_refl)|f_equal; apply Hx; left; reflexivity|]. exfalso.
    assert (x = i) by (apply Hx; left; reflexivity). assert (y = i) by (apply Hx; right; left; reflexivity). subst. inversion HNl as [|? ? G _]. apply G. left; reflexivity. }
  pose proof (sub_wf ms HNm Hcl) as Hwfm. pose proof (sub_tables ns Hwf ms Hinm Hcl Ht) as Htm.
  assert (Hlen : length ms = 1) by (unfold ms; rewrite map_length, Hl1; reflexivity).
  unfold create_partial_joint_pmf, guarded. rewrite (fin_final _ _ Hb), Esub. cbn [bind]. rewrite (create_joint_ok ms Hwfm Htm sub Hfin true fuel) by lia. cbn [bind variableIDs].
  assert (EI : bn_IDs sub = [i]).
  { rewrite (fin_IDs _ _ Hfin). assert (Enm : names ms = [name_at ns i]) by (unfold names; rewrite Enames, Hl1; reflexivity). rewrite Enm. cbn [map]. f_equal.
    assert (Hk : In (name_at ns i) (map nname ms)) by (rewrite Enames, Hl1; left; reflexivity). rewrite (sub_id ns Hwf ms Hinm _ Hk), (un_id ns Hun) by (apply (sub_incl ns Hwf ms Hinm); assumption). apply (position_name ns Hwf). lia. }
  rewrite EI. cbn [map existsb filter]. rewrite Z.eqb_refl. cbn [orb negb]. assert (Ei : iterate [] = []) by (apply Permutation_nil, Permutation_sym, Hit). rewrite Ei. cbn [foldM].
  eexists. split; [reflexivity|]. intros v. unfold pmf_p. cbn [probabilities]. destruct (assoc _ _ _) as [r|] eqn:Ea; [|reflexivity]. exfalso. apply kassoc_In in Ea. rewrite process_key in Ea. cbn [leaves_list flat_map leaves app map as_key] in Ea.
  apply (joint_entries_In ms Hwfm sub Hfin true) in Ea as (t & _ & Ek & _). discriminate.
Qed.
(** get_subnetwork keeps the IDs, but looks parents up by position: taking a partial joint of a
    subnetwork can fail *)
Definition two_roots : list node :=
  [{| nname := 0; nID := None; nvalues := [10; 11]; nparents := []; nprobs := [(None, [1/2; 1/2]%R)] |};
   {| nname := 1; nID := None; nvalues := [10; 11]; nparents := []; nprobs := [(None, [1/2; 1/2]%R)] |};
   {| nname := 2; nID := None; nvalues := [10; 11]; nparents := [1]; nprobs := [(Some [10], [1/2; 1/2]%R); (Some [11], [1/2; 1/2]%R)] |}].
Theorem C20_partial_joint_of_a_subnetwork_refuted : exists b sub,
  finalize 3 (new_bn two_roots) = Ok b /\ get_subnetwork 5 b [2] = Ok sub /\ bn_IDs sub = [1; 2] /\
  forall iterate fuel, create_partial_joint_pmf iterate (S (S fuel)) sub [2] = Err KeyError.
Proof.
  eexists. eexists. split; [vm_compute; reflexivity|]. split; [vm_compute; reflexivity|]. split; [reflexivity|].
  intros iterate fuel. reflexivity.
Qed.
Theorem C20_unknown_ID : forall ns b, fresh_network ns -> (exists fuel, finalize fuel (new_bn ns) = Ok b) -> forall iterate fuel ids, 
  (exists i, In i ids /\ length ns <= i) -> create_partial_joint_pmf iterate fuel b ids = Err KeyError.
Proof.
  intros ns b Hf (fuel0 & E) iterate fuel ids (i & Hi & Hlt). pose proof (fresh_IDs ns Hf) as HI. destruct Hf as (Hwf & Ht & Hun). destruct (finalize_final ns Hwf Ht HI fuel0 b E) as (Hb & Hac).
  unfold create_partial_joint_pmf, get_subnetwork, get_nodes_by_ID, guarded. rewrite (fin_final _ _ Hb).
  assert (G : forall l, In i l -> mapM (fun id => of_option KeyError (assoc Nat.eqb id (by_ID b))) l = Err KeyError).
  { induction l as [|x l IH]; intros Hin; [destruct Hin|]. cbn [mapM]. destruct Hin as [-> |Hin].
    - rewrite (un_lookup ns Hwf Hun b Hb). assert (En : nth_error (names ns) i = None) by (apply nth_error_None; rewrite (len_names ns); assumption). rewrite En. reflexivity.
    - destruct (assoc Nat.eqb x (by_ID b)); [|reflexivity]. cbn [of_option bind]. rewrite IH by assumption. reflexivity. }
  rewrite (G ids Hi). reflexivity.
Qed.
Example C20_nonvacuous : (exists i p, In i [0] /\ parent_of sprinkler p (nth i (names sprinkler) 0)) /\ (exists b, finalize 3 (new_bn sprinkler) = Ok b) /\
  (forall p, ~ parent_of sprinkler p (nth 2 (names sprinkler) 0)).
Proof.
  split; [exists 0, 2; split; [left; reflexivity|]; exists n0; cbn; auto|]. split.
  - destruct (fresh_finalize sprinkler (proj1 sprinkler_fresh) sprinkler_acyclic) as (b & _ & E). exists b. apply E. cbn. lia.
  - intros p (n & Hn & En & Hp). cbn in Hn. destruct Hn as [<- |[<- |[<- |[]]]]; cbn in En, Hp; try discriminate; destruct Hp.
Qed.

(** ** C21 *)
(** Every list of rolls (in sampling order) gives exactly one tuple of values: the one whose intervals
    contain the rolls. *)
Theorem C21_sample : forall ns b, fresh_network ns -> stochastic ns -> ns <> [] -> (exists fuel, finalize fuel (new_bn ns) = Ok b) ->
  forall rolls, length ns <= length rolls -> (forall r, In r rolls -> (r <= 1)%R) ->
  exists t, In t (tuples ns) /\
    bn_sample_list b true rolls = Ok (t, skipn (length ns) rolls) /\
    bn_sample_list b false rolls = Ok (values_at ns t, skipn (length ns) rolls) /\
    (forall t', In t' (tuples ns) -> rolls_select ns (order_nodes b) (firstn (length ns) rolls) (assignment ns t') <-> t' = t).
Proof.
  intros ns b Hf Hst Hne (fuel0 & E) rolls Hl Hr. pose proof (fresh_IDs ns Hf) as HI. destruct Hf as (Hwf & Ht & Hun). destruct (finalize_final ns Hwf Ht HI fuel0 b E) as (Hb & Hac).
  destruct (sample_ok ns Hwf Ht b Hb Hst rolls Hne Hl Hr) as (t & Hin & Hsel & Hs). exists t. split; [assumption|]. split; [rewrite (Hs true), (shown_values ns t true Hwf Hin); reflexivity|]. split; [rewrite (Hs false), (shown_values ns t false Hwf Hin); reflexivity|].
  intros t' Hin'. split; [intros Hsel'; apply (select_tuple_unique ns Hwf Ht b Hb Hst _ t' t Hin' Hin Hsel' Hsel)|intros ->; assumption].
Qed.
Print Assumptions C21_sample.
(** The rolls that give t form a box: one interval for each variable, given the values of its parents;
    the volume of the box is the probability of t. *)
Theorem C21_box_volume : forall ns b, fresh_network ns -> (exists fuel, finalize fuel (new_bn ns) = Ok b) -> forall t, In t (tuples ns) ->
  Prod (map (width ns (assignment ns t)) (order_nodes b)) = joint ns (assignment ns t).
Proof.
  intros ns b Hf (fuel0 & E) t Hin. pose proof (fresh_IDs ns Hf) as HI. destruct Hf as (Hwf & Ht & Hun). destruct (finalize_final ns Hwf Ht HI fuel0 b E) as (Hb & Hac). apply (widths_joint ns Hwf Ht b Hb t Hin).
Qed.
(** sample_matrix: row j is the sample drawn with the j-th block of rolls *)
Theorem C21_sample_matrix : forall ns b, fresh_network ns -> stochastic ns -> ns <> [] -> (exists fuel, finalize fuel (new_bn ns) = Ok b) ->
  forall k rolls, k * length ns <= length rolls -> (forall r, In r rolls -> (r <= 1)%R) ->
  exists rows, sample_matrix b k rolls = Ok (rows, skipn (k * length ns) rolls) /\ length rows = k /\
    forall j, j < k -> In (nth j rows []) (tuples ns) /\ rolls_select ns (order_nodes b) (firstn (length ns) (skipn (j * length ns) rolls)) (assignment ns (nth j rows [])).
Proof.
  intros ns b Hf Hst Hne Hfin k rolls Hl Hr. pose proof Hf as Hf'. pose proof (fresh_IDs ns Hf) as HI. destruct Hf as (Hwf & Ht & Hun). pose proof Hfin as (fuel0 & E). destruct (finalize_final ns Hwf Ht HI fuel0 b E) as (Hb & Hac).
  destruct (matrix_ok ns Hwf Ht b Hb Hst k rolls Hne Hl Hr) as (rows & E1 & E2 & E3). exists rows. split; [assumption|]. split; [assumption|]. intros j Hj. specialize (E3 j Hj).
  destruct (C21_sample ns b Hf' Hst Hne Hfin (skipn (j * length ns) rolls)) as (t & Hin & Es & _ & Hu).
  - rewrite skipn_length. assert (S j * length ns <= k * length ns) by (apply Nat.mul_le_mono_r; lia). cbn [Nat.mul] in *. lia.
  - intros r Hin'. apply Hr. rewrite <- (firstn_skipn (j * length ns) rolls). apply in_or_app. right; assumption.
  - rewrite Es in E3. injection E3 as Et _. rewrite <- Et. split; [assumption|]. apply Hu; [assumption|reflexivity].
Qed.
(** a row that sums to less than a roll: Python indexes the values with None *)
Theorem C21_deficient_row : forall ns b v ord, fresh_network ns -> (exists fuel, finalize fuel (new_bn ns) = Ok b) -> order_nodes b = v :: ord ->
  (forall e p, In p (row_for ns v e) -> (0 <= p)%R) -> forall ai r rolls, (Sum (row_for ns v (fun _ => O)) < r)%R -> bn_sample_list b ai (r :: rolls) = Err TypeError.
Proof.
  intros ns b v ord Hf (fuel0 & E) Eo Hpos ai r rolls Hr. pose proof (fresh_IDs ns Hf) as HI. destruct Hf as (Hwf & Ht & Hun). destruct (finalize_final ns Hwf Ht HI fuel0 b E) as (Hb & Hac).
  destruct (node_step ns Hwf Ht b Hb [] v ord (fun _ => 0) r rolls Eo ltac:(intros u [])) as (n & row & Ef & Er & _ & _ & Es).
  unfold cumulative in Es. rewrite (roll_none row) in Es; [|intros p Hp; apply (Hpos (fun _ => 0)); rewrite Er; assumption|rewrite Er in Hr; lra].
  unfold bn_sample_list, bn_sample, guarded. rewrite (fin_final _ _ Hb), Eo. cbn [foldM].
  match goal with |- bind (bind (bind ?x _) _) _ = _ => assert (Ex : x = Err TypeError) by exact Es; rewrite Ex end. reflexivity.
Qed.
(** VariableNode.sample with its default recursive=True fails as soon as a parent is not in the
    partial sample *)
Theorem C21_recursive_node_sample_refuted : forall n s rolls p, In p (nparents n) -> ~ In p (map fst s) -> ~ In (nname n) (map fst s) ->
  node_sample n true (s, rolls) = Err AttributeError.
Proof.
  intros n s rolls p Hp Hs Hn. unfold node_sample.
  assert (G : forall v, ~ In v (map fst s) -> existsb (fun kv => Nat.eqb v (fst kv)) s = false).
  { intros v Hv. apply Bool.not_true_iff_false. intros H. apply existsb_exists in H as (kv & Hin & E). apply Nat.eqb_eq in E. subst v. apply Hv. apply in_map. assumption. }
  rewrite (G _ Hn). destruct (nparents n) as [|q ps]; [destruct Hp|].
  assert (Ef : forallb (fun p => existsb (fun kv => Nat.eqb p (fst kv)) s) (q :: ps) = false).
  { apply Bool.not_true_iff_false. intros H. rewrite forallb_forall in H. specialize (H p Hp). rewrite (G p Hs) in H. discriminate. }
  rewrite Ef. reflexivity.
Qed.
(** a roll of exactly 0 selects the first value even if its probability is 0 *)
Theorem C21_zero_roll_refuted : exists row r i, (forall p, In p row -> (0 <= p)%R) /\ Sum row = 1%R /\ (0 <= r < 1)%R /\ sample_roll r (cumulative row) = Some i /\ nth i row 0%R = 0%R.
Proof.
  exists [0%R; 1%R], 0%R, 0. split; [intros p [<- |[<- |[]]]; lra|]. split; [cbn; lra|]. split; [lra|]. split; [|reflexivity]. cbn. destruct (Rle_dec 0 (0 + 0)); [reflexivity|exfalso; lra].
Qed.
Example C21_nonvacuous : exists rolls, length sprinkler <= length rolls /\ (forall r, In r rolls -> (0 <= r < 1)%R) /\
  rolls_select sprinkler [2; 0; 1] rolls (assignment sprinkler [0; 1; 1]).
Proof.
  exists [1/2; 1/3; 1/2]%R. split; [cbn; lia|]. split; [intros r [<- |[<- |[<- |[]]]]; lra|].
  repeat apply Forall2_cons; try apply Forall2_nil; unfold selects, upper, lower; cbn; (split; [lia|]; split; [lra|]); first [left; reflexivity | right; lra].
Qed.

(** ** C49 *)
Theorem C49_IDs : forall ns b, fresh_network ns -> (exists fuel, finalize fuel (new_bn ns) = Ok b) ->
  bn_IDs b = seq 0 (length ns) /\
  variable_node_names b = names ns /\
  (forall i, i < length ns -> exists n, assoc Nat.eqb i (by_ID b) = Some (nth i (names ns) 0) /\ find_node (variable_nodes b) (nth i (names ns) 0) = Some n /\ nID n = Some i) /\
  (forall i, length ns <= i -> assoc Nat.eqb i (by_ID b) = None) /\
  (forall m, In m (variable_nodes b) -> exists i, nID m = Some i /\ i < length ns /\ nth i (names ns) 0 = nname m) /\
  joint_pmf_size b = length (tuples ns).
Proof.
  intros ns b Hf (fuel0 & E). pose proof (fresh_IDs ns Hf) as HI. destruct Hf as (Hwf & Ht & Hun). destruct (finalize_final ns Hwf Ht HI fuel0 b E) as (Hb & Hac). assert (HN : length (names ns) = length ns) by (apply (len_names ns)).
  split; [rewrite (fin_IDs _ _ Hb), (un_ids ns Hwf Hun), HN; reflexivity|]. split; [apply (b_names ns b Hb)|]. split; [|split; [|split]].
  - intros i Hi. destruct (get_node_ok ns b Hb (nth i (names ns) 0)) as (n & Ef & Eg); [apply (names_known ns), nth_In; lia|].
    exists (with_ID n (id_for ns (nth i (names ns) 0))). split; [rewrite (un_lookup ns Hwf Hun b Hb); apply nth_error_nth'; lia|]. split.
    + unfold get_node in Eg. destruct (find_node (variable_nodes b) _); [|discriminate]. injection Eg as ->. reflexivity.
    + cbn [with_ID nID]. f_equal. rewrite (un_id ns Hun) by (apply (names_known ns), nth_In; lia). apply position_nth; [apply names_nodup; assumption|lia].
  - intros i Hi. rewrite (un_lookup ns Hwf Hun b Hb). apply nth_error_None. lia.
  - intros m Hm. rewrite (fin_nodes _ _ Hb) in Hm. unfold numbered in Hm. apply in_map_iff in Hm as (n & <- & Hn). cbn [with_ID nID nname]. assert (Hk : In (nname n) (map nname ns)) by (apply in_map; assumption).
    exists (position (nname n) (names ns)). rewrite (un_id ns Hun _ Hk). split; [reflexivity|]. apply (names_known ns) in Hk. destruct (nth_position (names ns) (nname n) 0 Hk) as (E1 & L1). split; [lia|assumption].
  - rewrite (fin_size _ _ Hb). apply size_tuples. apply Hwf.
Qed.
Print Assumptions C49_IDs.
(** the graphs are those of the network, on the IDs *)
Theorem C49_graphs : forall ns b, fresh_network ns -> (exists fuel, finalize fuel (new_bn ns) = Ok b) -> forall u, u < length ns ->
  (exists l, assoc Nat.eqb u (graph_d b) = Some l /\ StronglySorted lt l /\
     forall v, In v l <-> v < length ns /\ parent_of ns (nth u (names ns) 0) (nth v (names ns) 0)) /\
  (exists l, assoc Nat.eqb u (graph_u b) = Some l /\ StronglySorted lt l /\
     forall v, In v l <-> v < length ns /\ (parent_of ns (nth u (names ns) 0) (nth v (names ns) 0) \/ parent_of ns (nth v (names ns) 0) (nth u (names ns) 0))).
Proof.
  intros ns b Hf (fuel0 & E). pose proof (fresh_IDs ns Hf) as HI. destruct Hf as (Hwf & Ht & Hun). destruct (finalize_final ns Hwf Ht HI fuel0 b E) as (Hb & Hac). apply (graphs_ok ns Hwf Ht Hun b Hb).
Qed.
(** a second finalize lists everything twice: samples are unchanged, but the joint PMF can no longer
    be computed (its recursion never ends) *)
Theorem C49_second_finalize : forall ns b, fresh_network ns -> ns <> [] -> (exists fuel, finalize fuel (new_bn ns) = Ok b) ->
  exists b2, (forall fuel, finalize fuel b = Ok b2) /\
    order_nodes b2 = order_nodes b ++ order_nodes b /\ bn_IDs b2 = bn_IDs b ++ bn_IDs b /\
    (stochastic ns -> forall ai rolls, length ns <= length rolls -> (forall r, In r rolls -> (r <= 1)%R) -> bn_sample_list b2 ai rolls = bn_sample_list b ai rolls) /\
    forall ai fuel, create_joint_pmf fuel b2 ai = Err OutOfFuel.
Proof.
  intros ns b Hf Hne (fuel0 & E). pose proof (fresh_IDs ns Hf) as HI. destruct Hf as (Hwf & Ht & Hun). destruct (finalize_final ns Hwf Ht HI fuel0 b E) as (Hb & Hac).
  exists (twice ns b). split; [intros fuel; apply (finalize_twice ns Hwf Ht Hun Hne b Hb)|]. split; [reflexivity|]. split; [reflexivity|]. split.
  - intros Hst ai rolls Hl Hr. apply (twice_sample ns); assumption.
  - intros ai fuel. apply (twice_joint ns); assumption.
Qed.
Print Assumptions C49_second_finalize.
(** not finalised: every query refuses *)
Theorem C49_not_finalised : forall ns iterate fuel ids ai rolls,
  create_joint_pmf fuel (new_bn ns) ai = Err RuntimeError /\ bn_sample_list (new_bn ns) ai rolls = Err RuntimeError /\
  create_partial_joint_pmf iterate fuel (new_bn ns) ids = Err RuntimeError.
Proof. intros. repeat split; reflexivity. Qed.
Example C49_nonvacuous : names sprinkler = [0; 1; 2] /\ forall b, finalize 3 (new_bn sprinkler) = Ok b -> order_nodes b = [2; 0; 1] /\ bn_IDs b = [0; 1; 2].
Proof. split; [reflexivity|]. intros b E. vm_compute in E. injection E as <-. split; reflexivity. Qed.
