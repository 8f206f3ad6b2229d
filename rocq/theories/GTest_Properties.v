(** Theorems about the G-tests (C13, C14, C15, C16). *)
From Coq Require Import Reals Lra.
From Verif Require Import Base AD_Model AD_Query_Model AD_Spec AD_Proofs AD_Examples Prob_Spec Prob_Proofs MB_Model MB_Cache_Proofs
  GTest_Model GTest_Spec GTest_Tables_Proofs GTest_DoF_Proofs GTest_Cache_Proofs GTest_Impl_Proofs GTest_AD_Proofs GTest_Proofs GTest_More_Proofs.
Open Scope Z_scope.

Lemma Forall2_len {A B} (R : A -> B -> Prop) l m : Forall2 R l m -> length l = length m.
Proof. induction 1; simpl; congruence. Qed.
Lemma no_files_ok D im kind : disk_ok D im kind no_files.
Proof. split; intros; discriminate. Qed.
Lemma start_fresh D p im kind : order_ok p -> wf_for D im -> compatible im kind ->
  exists st, start D im kind None None no_files = Ok st /\ inv D im kind st /\ results st = [] /\ ci_test_counter st = 0.
Proof.
  intros HO Hw Hc. destruct (start_ok D (proj1 Hw) im kind no_files Hw Hc (no_files_ok D im kind)) as [(st & E & Hi & Hr & Hn & _)|(_ & Hni)].
  - exists st. auto.
  - exfalso. apply Hni. split; intros; discriminate.
Qed.

(** ** C13 *)
(** every implementation, with every calculator it accepts, answers and logs every sequence of
    tests as the specification says: G = 2 N I(X;Y|Z) from the rows *)
Theorem C13_reports_the_G_statistic : forall D p im kind tests, wf_for D im -> compatible im kind -> order_ok p -> Forall (wf_test D) tests ->
  exists st os st', start D im kind None None no_files = Ok st /\ run_tests D p im kind st tests = Ok (os, st') /\
    Forall2 (expected_outcome D p kind) tests os /\ logged D p kind 0 tests (results st').
Proof.
  intros D p im kind tests Hw Hc HO Ht. destruct (start_fresh D p im kind HO Hw Hc) as (st & E & Hi & Hr & Hn).
  destruct (run_tests_ok D (proj1 Hw) (proj1 (proj2 Hw)) p HO im kind tests Hw Hc Ht st Hi) as (os & st' & rs & E' & _ & Ho & El & Hl & _).
  exists st, os, st'. rewrite Hr in El. rewrite Hn in Hl. cbn [app] in El. subst rs. auto.
Qed.
Print Assumptions C13_reports_the_G_statistic.

(** any two implementations give the same answers and write the same log *)
Theorem C13_implementations_agree : forall D p im1 im2 kind1 kind2 tests,
  wf_for D im1 -> wf_for D im2 -> compatible im1 kind1 -> compatible im2 kind2 -> (kind1 = UnadjustedDoF <-> kind2 = UnadjustedDoF) ->
  order_ok p -> Forall (wf_test D) tests ->
  exists st1 st2 os st1' st2', start D im1 kind1 None None no_files = Ok st1 /\ start D im2 kind2 None None no_files = Ok st2 /\
    run_tests D p im1 kind1 st1 tests = Ok (os, st1') /\ run_tests D p im2 kind2 st2 tests = Ok (os, st2') /\ results st1' = results st2'.
Proof.
  intros D p im1 im2 kind1 kind2 tests W1 W2 K1 K2 Hk HO Ht.
  destruct (C13_reports_the_G_statistic D p im1 kind1 tests W1 K1 HO Ht) as (st1 & os1 & st1' & E1 & R1 & O1 & (L1 & G1)).
  destruct (C13_reports_the_G_statistic D p im2 kind2 tests W2 K2 HO Ht) as (st2 & os2 & st2' & E2 & R2 & O2 & (L2 & G2)).
  assert (Hd : forall X Y Z, dof_for D kind1 X Y Z = dof_for D kind2 X Y Z).
  { intros. destruct kind1, kind2; cbn; try reflexivity; exfalso; destruct Hk as (H1 & H2); try (discriminate (H1 eq_refl)); discriminate (H2 eq_refl). }
  assert (Eo : os1 = os2).
  { clear -O1 O2 Hd. revert os2 O2. induction O1 as [|t o tests os1 H O1 IH]; intros os2 O2; inversion O2; subst; [reflexivity|]. f_equal; [|apply IH; assumption].
    eapply outcome_unique; [|eassumption|eassumption]. apply Hd. }
  subst os2. exists st1, st2, os1, st1', st2'. repeat split; auto.
  apply nth_ext with (d := {| r_index := 0; r_X := 0; r_Y := 0; r_Z := []; r_independent := None; r_G := 0; r_p := 0; r_DoF := 0 |})
                     (d' := {| r_index := 0; r_X := 0; r_Y := 0; r_Z := []; r_independent := None; r_G := 0; r_p := 0; r_DoF := 0 |}); [congruence|].
  intros i Hi. assert (Hi2 : (i < length (results st2'))%nat) by congruence. assert (Hit : (i < length tests)%nat) by congruence.
  destruct (nth_error tests i) as [[[X Y] Z]|] eqn:Et; [|apply nth_error_None in Et; lia].
  eapply expected_unique; [apply (Hd X Y Z)| |]; [eapply G1|eapply G2]; eauto; apply nth_error_nth'; assumption.
Qed.
Print Assumptions C13_implementations_agree.

(** an AD-tree taken over from another test object (`ci_test_ad_tree_preloaded`), however many
    queries have grown it, gives the same answers *)
Theorem C13_preloaded_tree : forall D p dyn kind kind' before tests, wf_for D (WithADTree dyn) -> order_ok p -> Forall (wf_test D) before -> Forall (wf_test D) tests ->
  exists st os st' t, start D (WithADTree dyn) kind' None None no_files = Ok st /\ run_tests D p (WithADTree dyn) kind' st before = Ok (os, st') /\ ad_tree st' = Some t /\
  exists st2 os2 st2', start D (WithADTree dyn) kind (Some t) None no_files = Ok st2 /\ run_tests D p (WithADTree dyn) kind st2 tests = Ok (os2, st2') /\
    Forall2 (expected_outcome D p kind) tests os2 /\ logged D p kind 0 tests (results st2').
Proof.
  intros D p dyn kind kind' before tests Hw HO Hb Ht. destruct (start_fresh D p (WithADTree dyn) kind' HO Hw I) as (st & E & Hi & _ & _).
  pose proof (proj1 Hw) as WF. pose proof (proj1 (proj2 Hw)) as HR.
  destruct (run_tests_ok D WF HR p HO _ kind' before Hw I Hb st Hi) as (os & st' & rs & E' & (_ & _ & t & Et & Hok) & _).
  exists st, os, st', t. repeat split; auto. unfold start.
  destruct (query_count_ok D WF dyn t []) as (t' & Eq & Ht'); [exact Hok|split; [constructor|intros ? ? []]|].
  assert (Ec : (match kind with CachedStructuralDoF => read_file [] (f_dofs no_files) | _ => Ok [] end) = Ok []) by (destruct kind; reflexivity).
  rewrite Ec. cbn [bind]. rewrite Eq. cbn [bind]. eexists.
  match goal with |- exists os2 st2', Ok ?s = Ok _ /\ _ => assert (Hi2 : inv D (WithADTree dyn) kind s) end.
  { split; [|split; [apply dcache_nil|exists t'; auto]]. cbn [sample_size]. unfold count_matching. f_equal. clear. induction (rows D) as [|x l IH]; cbn [filter row_agrees forallb length]; [reflexivity|rewrite IH; reflexivity]. }
  destruct (run_tests_ok D WF HR p HO _ kind tests Hw I Ht _ Hi2) as (os2 & st2' & rs2 & E2 & _ & Ho & El & Hl & _).
  exists os2, st2'. split; [reflexivity|]. split; [exact E2|]. split; [assumption|]. cbn in El. rewrite El. exact Hl.
Qed.
Print Assumptions C13_preloaded_tree.

(** ** C14 *)
(** whatever was tested before, the answers are those of a fresh object *)
Theorem C14_any_history : forall D p kind before tests, wf_for D WithDcMI -> compatible WithDcMI kind -> order_ok p -> Forall (wf_test D) before -> Forall (wf_test D) tests ->
  exists st os0 st1 os st2 os_fresh st3, start D WithDcMI kind None None no_files = Ok st /\
    run_tests D p WithDcMI kind st before = Ok (os0, st1) /\ run_tests D p WithDcMI kind st1 tests = Ok (os, st2) /\
    run_tests D p WithDcMI kind st tests = Ok (os_fresh, st3) /\ os = os_fresh /\
    jht_reads st2 = jht_reads st1 + zsum (map entropies_needed tests) /\
    jht_misses st2 = jht_misses st1 + (Z.of_nat (length (jht st2)) - Z.of_nat (length (jht st1))).
Proof.
  intros D p kind before tests Hw Hc HO Hb Ht. destruct (start_fresh D p WithDcMI kind HO Hw Hc) as (st & E & Hi & Hr & Hn).
  pose proof (proj1 Hw) as WF. pose proof (proj1 (proj2 Hw)) as HR.
  destruct (run_tests_ok D WF HR p HO _ kind before Hw Hc Hb st Hi) as (os0 & st1 & rs0 & E0 & Hi1 & _).
  destruct (run_tests_ok D WF HR p HO _ kind tests Hw Hc Ht st1 Hi1) as (os & st2 & rs & E1 & _ & Ho & _ & _ & _ & Hd).
  destruct (run_tests_ok D WF HR p HO _ kind tests Hw Hc Ht st Hi) as (os' & st3 & rs' & E2 & _ & Ho' & _).
  exists st, os0, st1, os, st2, os', st3. destruct (Hd eq_refl) as (Hd1 & Hd2 & _).
  split; [assumption|]. split; [assumption|]. split; [assumption|]. split; [assumption|]. split; [|split; [assumption|lia]].
  clear -Ho Ho'. revert os' Ho'. induction Ho as [|t o tests os H Ho IH]; intros os' Ho'; inversion Ho'; subst; [reflexivity|]. f_equal; [|apply IH; assumption].
  eapply outcome_unique; [|eassumption|eassumption]. reflexivity.
Qed.
Print Assumptions C14_any_history.

(** an entropy is computed only once: repeating a test, however many tests later, causes no miss
    and adds no entry *)
Theorem C14_no_recomputation : forall D p kind before X Y Z between, wf_for D WithDcMI -> compatible WithDcMI kind -> order_ok p ->
  Forall (wf_test D) (before ++ (X, Y, Z) :: between) ->
  exists st os st1 r st2, start D WithDcMI kind None None no_files = Ok st /\
    run_tests D p WithDcMI kind st (before ++ (X, Y, Z) :: between) = Ok (os, st1) /\
    run_test D p WithDcMI kind st1 X Y Z = Ok (r, st2) /\ jht_misses st2 = jht_misses st1 /\ length (jht st2) = length (jht st1).
Proof.
  intros D p kind before X Y Z between Hw Hc HO Ht. destruct (start_fresh D p WithDcMI kind HO Hw Hc) as (st & E & Hi & _ & _).
  pose proof (proj1 Hw) as WF. pose proof (proj1 (proj2 Hw)) as HR. apply Forall_app in Ht as (Hb & Ht). inversion Ht as [|? ? Hx Ht']; subst.
  destruct (run_tests_ok D WF HR p HO _ kind before Hw Hc Hb st Hi) as (os0 & st0 & rs0 & E0 & Hi0 & _).
  destruct (run_test_ok D WF HR p HO _ kind st0 X Y Z Hw Hc Hi0 Hx) as (r1 & st1 & E1 & Hi1 & _ & _ & _ & Hd1).
  destruct (run_tests_ok D WF HR p HO _ kind between Hw Hc Ht' st1 Hi1) as (os2 & st2 & rs2 & E2 & Hi2 & _ & _ & _ & _ & Hd2).
  destruct (run_test_ok D WF HR p HO _ kind st2 X Y Z Hw Hc Hi2 Hx) as (r3 & st3 & E3 & _ & _ & _ & _ & Hd3).
  exists st, (os0 ++ outcome_of r1 :: os2), st2, r3, st3. split; [assumption|]. split.
  - clear -E0 E1 E2. revert st os0 E0. induction before as [|[[X0 Y0] Z0] before IH]; intros st os0 E0; cbn [run_tests app] in *.
    + injection E0 as <- <-. unfold conditionally_independent. rewrite E1. cbn [bind]. rewrite E2. reflexivity.
    + destruct (conditionally_independent D p WithDcMI kind st X0 Y0 Z0) as [[o s]|]; [|discriminate]. cbn [bind] in *.
      destruct (run_tests D p WithDcMI kind s before) as [[os s']|] eqn:Er; [|discriminate]. cbn [bind] in E0. injection E0 as <- <-.
      rewrite (IH s os Er). reflexivity.
  - split; [assumption|]. destruct (Hd1 eq_refl) as (Hk & _). destruct (Hd2 eq_refl) as (_ & _ & Hkeep & _). destruct (Hd3 eq_refl) as (_ & _ & Hl & _ & Hm & _).
    assert (Hall : all_known (jht st2) X Y Z) by (intros vs Hin Hne; rewrite Hkeep; apply Hk; assumption).
    specialize (Hm Hall). split; [assumption|lia].
Qed.
Print Assumptions C14_no_recomputation.

(** a preloaded table of exact joint entropies changes no answer *)
Theorem C14_preloaded_entropies : forall D p j reads misses tests, wf_for D WithDcMI -> order_ok p -> exact_entropies D j -> Forall (wf_test D) tests ->
  exists st os st', start D WithDcMI UnadjustedDoF None (Some (j, Some (reads, misses))) no_files = Ok st /\
    run_tests D p WithDcMI UnadjustedDoF st tests = Ok (os, st') /\ Forall2 (expected_outcome D p UnadjustedDoF) tests os /\
    logged D p UnadjustedDoF 0 tests (results st') /\ jht_reads st' = reads + zsum (map entropies_needed tests) /\
    jht_misses st' = misses + (Z.of_nat (length (jht st')) - Z.of_nat (length j)).
Proof.
  intros D p j reads misses tests Hw HO Hj Ht. pose proof (proj1 Hw) as WF. pose proof (proj1 (proj2 Hw)) as HR.
  eexists.
  assert (Hc : compatible WithDcMI UnadjustedDoF) by discriminate. cbn.
  match goal with |- exists os st', Ok ?s = Ok _ /\ _ => assert (Hi : inv D WithDcMI UnadjustedDoF s) end.
  { split; [reflexivity|]. split; [apply dcache_nil|]. split; [assumption|discriminate]. }
  destruct (run_tests_ok D WF HR p HO _ _ tests Hw Hc Ht _ Hi) as (os & st' & rs & E & _ & Ho & El & Hl & _ & Hd).
  exists os, st'. split; [reflexivity|]. split; [exact E|]. split; [assumption|]. cbn in El. rewrite El. destruct (Hd eq_refl) as (H1 & H2 & _). cbn in H1, H2.
  split; [exact Hl|]. split; [assumption|lia].
Qed.
Print Assumptions C14_preloaded_entropies.

(** ... but a table that lacks the entries 'reads' and 'misses' (such as the JHT of a finished or
    running test object, which keeps its counters elsewhere) cannot be preloaded: KeyError *)
Theorem C14_preloaded_needs_counters : forall D kind j dk, kind = UnadjustedDoF \/ kind = CachedStructuralDoF /\ f_dofs dk <> Torn ->
  start D WithDcMI kind None (Some (j, None)) dk = Err KeyError.
Proof. intros D kind j dk [-> | (-> & H)]; [reflexivity|]. unfold start. destruct (f_dofs dk); [reflexivity|congruence|reflexivity]. Qed.
Print Assumptions C14_preloaded_needs_counters.
(** ... and with CachedStructuralDoF, whose table is filled only when an entropy is computed, a
    preloaded entropy of X, Y, Z makes the test of X, Y given Z fail: KeyError *)
Theorem C14_preloaded_breaks_cached_dof : forall D p j reads misses X Y Z, wf_for D WithDcMI -> order_ok p -> exact_entropies D j -> wf_test D (X, Y, Z) ->
  assoc list_eqb (frozenset (X :: Y :: Z)) j <> None ->
  exists st, start D WithDcMI CachedStructuralDoF None (Some (j, Some (reads, misses))) no_files = Ok st /\
    conditionally_independent D p WithDcMI CachedStructuralDoF st X Y Z = Err KeyError.
Proof.
  intros D p j reads misses X Y Z Hw HO Hj Ht Hk. eexists. split; [reflexivity|]. unfold conditionally_independent.
  rewrite (run_test_keyerror D (proj1 (proj2 Hw)) p HO); auto. apply dcache_nil.
Qed.
Print Assumptions C14_preloaded_breaks_cached_dof.

(** processes that share the saved tables, each killed at any point of its writing: a process
    either cannot read a damaged file or answers every test right; if no process is killed in the
    middle of a write, all of them run *)
Theorem C14_saved_tables : forall D p im kind ss, wf_for D im -> compatible im kind -> order_ok p -> Forall (fun s => Forall (wf_test D) (s_tests s)) ss ->
  let os := fst (run_sessions D p im kind ss no_files) in
  Forall2 (fun s o => o = Err PickleErr \/ exists l, o = Ok l /\ Forall2 (expected_outcome D p kind) (s_tests s) l) ss os /\
  (Forall (fun s => Nat.even (s_steps s) = true) ss -> Forall2 (fun s o => exists l, o = Ok l /\ Forall2 (expected_outcome D p kind) (s_tests s) l) ss os).
Proof.
  intros D p im kind ss Hw Hc HO Hs. cbv zeta.
  destruct (run_sessions_ok D (proj1 Hw) (proj1 (proj2 Hw)) p HO im kind ss Hw Hc Hs no_files (no_files_ok D im kind)) as (H1 & _ & H3).
  split; [assumption|]. intros Hev. specialize (H3 ltac:(split; intros; discriminate) Hev). clear -H1 H3.
  induction H1 as [|s o ss os H H1 IH]; [constructor|]. inversion H3; subst. constructor; [|apply IH; assumption]. destruct H as [H|H]; [contradiction|assumption].
Qed.
Print Assumptions C14_saved_tables.

(** ** C15 *)
(** in every history the cached calculator reports what the structural one computes from the rows *)
Theorem C15_cached_is_structural : forall D p im tests, wf_for D im -> order_ok p -> Forall (wf_test D) tests ->
  exists st os st', start D im CachedStructuralDoF None None no_files = Ok st /\ run_tests D p im CachedStructuralDoF st tests = Ok (os, st') /\
    Forall2 (fun (t : test) r => r_DoF r = structural_dof D (fst (fst t)) (snd (fst t)) (snd t)) tests (results st') /\
    (im <> WithDcMI -> exists st2 os2 st2', start D im StructuralDoF None None no_files = Ok st2 /\ run_tests D p im StructuralDoF st2 tests = Ok (os2, st2') /\
       os2 = os /\ map r_DoF (results st2') = map r_DoF (results st')).
Proof.
  intros D p im tests Hw HO Ht. assert (Hc : compatible im CachedStructuralDoF) by (destruct im; try exact I; discriminate).
  destruct (C13_reports_the_G_statistic D p im _ tests Hw Hc HO Ht) as (st & os & st' & E & R & O & (L & G)).
  exists st, os, st'. split; [assumption|]. split; [assumption|]. split.
  - clear -L G. revert L G. generalize 0. generalize (results st'). induction tests as [|[[X Y] Z] tests IH]; intros [|r rs] n L G; try discriminate; constructor.
    + destruct (G O X Y Z r eq_refl eq_refl) as (_ & _ & _ & _ & H & _). exact H.
    + apply (IH rs (n + 1)); [simpl in L; lia|]. intros i X' Y' Z' r' E1 E2. replace (n + 1 + Z.of_nat i + 1) with (n + Z.of_nat (S i) + 1) by lia. eapply G; eassumption.
  - intros Him. assert (Hc2 : compatible im StructuralDoF) by (destruct im; try exact I; congruence).
    destruct (C13_implementations_agree D p im im StructuralDoF CachedStructuralDoF tests Hw Hw Hc2 Hc ltac:(split; discriminate) HO Ht) as (s1 & s2 & o & s1' & s2' & E1 & E2 & R1 & R2 & Er).
    rewrite E in E2. injection E2 as <-. rewrite R in R2. injection R2 as <- <-. exists s1, os, s1'. rewrite Er. auto.
Qed.
Print Assumptions C15_cached_is_structural.
(** at least 1, at most the unadjusted value, symmetric, independent of the order of Z *)
Theorem C15_bounds : forall D X Y Z Z', wf_dataset D -> (forall c, In c (X :: Y :: Z) -> (c < ncols D)%nat) -> (forall c, In c Z <-> In c Z') ->
  1 <= structural_dof D X Y Z <= unadjusted_dof D X Y Z /\ structural_dof D X Y Z = structural_dof D Y X Z /\ structural_dof D X Y Z = structural_dof D X Y Z'.
Proof. intros D X Y Z Z' WF Hc HZ. split; [apply structural_bounds; assumption|]. split; [apply structural_sym|apply structural_set; assumption]. Qed.
Print Assumptions C15_bounds.
(** asked about variables it has not seen, it raises KeyError *)
Theorem C15_unseen : forall c X Y Z, (forall k v, In (k, v) c -> frozenset k <> frozenset (X :: Y :: Z)) -> (forall k v, In (k, v) c -> k = frozenset k) ->
  cached_DoF c X Y Z = Err KeyError.
Proof.
  intros c X Y Z H Hf. unfold cached_DoF. assert (E : assoc list_eqb (frozenset (X :: Y :: Z)) c = None); [|rewrite E; reflexivity].
  induction c as [|[k v] c IH]; [reflexivity|]. cbn [assoc]. destruct (list_eqb (frozenset (X :: Y :: Z)) k) eqn:E; [|apply IH; intros k' v' Hin; [apply (H k' v')|apply (Hf k' v')]; right; assumption].
  apply list_eqb_eq in E. exfalso. apply (H k v (or_introl eq_refl)). rewrite <- (Hf k v (or_introl eq_refl)). congruence.
Qed.
Print Assumptions C15_unseen.

(** ** C16 *)
Theorem C16_decision_and_log : forall D p im kind tests, wf_for D im -> compatible im kind -> order_ok p -> Forall (wf_test D) tests ->
  exists st os st', start D im kind None None no_files = Ok st /\ run_tests D p im kind st tests = Ok (os, st') /\
    length os = length tests /\ length (results st') = length tests /\ ci_test_counter st' = Z.of_nat (length tests) /\
    forall i X Y Z, nth_error tests i = Some (X, Y, Z) -> exists o r, nth_error os i = Some o /\ nth_error (results st') i = Some r /\
      r_index r = Z.of_nat i + 1 /\ r_X r = X /\ r_Y r = Y /\ r_Z r = Z /\
      (o = RaisesInsufficientSamples <-> enough D p (dof_for D kind X Y Z) = false) /\ (o = RaisesInsufficientSamples <-> r_independent r = None) /\
      (forall b, o = Verdict b <-> r_independent r = Some b) /\
      (o = Verdict true <-> enough D p (dof_for D kind X Y Z) = true /\ (chi2_cdf p (G_statistic D X Y Z) (dof_for D kind X Y Z) < significance p)%R).
Proof.
  intros D p im kind tests Hw Hc HO Ht. destruct (start_fresh D p im kind HO Hw Hc) as (st & E & Hi & Hr & Hn).
  destruct (run_tests_ok D (proj1 Hw) (proj1 (proj2 Hw)) p HO im kind tests Hw Hc Ht st Hi) as (os & st' & rs & E' & _ & Ho & El & (L & G) & Hcn & _).
  exists st, os, st'. rewrite Hr in El. rewrite Hn in G, Hcn. cbn [app] in El. subst rs. pose proof (Forall2_len _ _ _ Ho) as Hlo.
  split; [assumption|]. split; [assumption|]. split; [congruence|]. split; [congruence|]. split; [lia|].
  intros i X Y Z Et. assert (Hi' : (i < length tests)%nat) by (apply nth_error_Some; congruence).
  destruct (nth_error os i) as [o|] eqn:Eo; [|apply nth_error_None in Eo; lia]. destruct (nth_error (results st') i) as [r|] eqn:Er; [|apply nth_error_None in Er; lia].
  exists o, r. split; [reflexivity|]. split; [reflexivity|]. pose proof (G i X Y Z r Et Er) as (A1 & A2 & A3 & A4 & A5 & A6 & A7).
  assert (Hoi : expected_outcome D p kind (X, Y, Z) o).
  { clear -Ho Et Eo. revert i Et Eo. induction Ho as [|t o' tests os H Ho IH]; intros [|i] Et Eo; try discriminate; cbn in Et, Eo; [injection Et as ->; injection Eo as ->; assumption|eapply IH; eassumption]. }
  unfold expected_outcome in Hoi. split; [lia|]. split; [assumption|]. split; [assumption|]. split; [assumption|].
  destruct (enough D p (dof_for D kind X Y Z)).
  - destruct (A6 eq_refl) as (_ & _ & b & Eb & Hb). destruct o as [b'|]; [|discriminate]. destruct Hoi as (_ & Hb'). assert (b = b') by (destruct b, b'; try reflexivity; [symmetry|]; tauto). subst b'. rewrite Eb.
    split; [split; discriminate|]. split; [split; discriminate|]. split; [intros b0; split; intros K; injection K as ->; reflexivity|].
    split; [intros K; injection K as ->; tauto|]. intros (_ & K). f_equal. apply Hb. assumption.
  - destruct (A7 eq_refl) as (Eb & _). destruct o as [b'|]; [destruct Hoi; discriminate|]. rewrite Eb. split; [tauto|]. split; [tauto|]. split; [intros b; split; discriminate|]. split; [discriminate|intros (K & _); discriminate].
Qed.
Print Assumptions C16_decision_and_log.
(** The file of results: end() empties it before it writes the log into it, whole.  Killed before that it
    is what it was; killed in between it can no longer be read. *)
Theorem C16_results_file : forall im kind st steps d,
  f_results (end_crashing im kind st steps d) = match steps with O => f_results d | S O => Torn | _ => Saved (results st) end.
Proof.
  intros im kind st [|[|steps]] d; [reflexivity|destruct kind, im; reflexivity|].
  destruct kind, im; do 7 (destruct steps as [|steps]; [reflexivity|]); reflexivity.
Qed.
(** So a crash does not leave the results of the previous process or the new ones. *)
Theorem C16_old_or_new_results_refuted : exists im kind st steps d old,
  f_results d = Saved old /\ f_results (end_crashing im kind st steps d) <> Saved old /\ f_results (end_crashing im kind st steps d) <> Saved (results st).
Proof.
  exists Plain, UnadjustedDoF, {| ad_tree := None; sample_size := 0; jht := []; jht_counters := None; jht_reads := 0; jht_misses := 0; dof_cache := []; results := []; ci_test_counter := 0 |},
    1%nat, {| f_results := Saved []; f_dofs := Absent; f_jht := Absent |}, []. split; [reflexivity|]. split; discriminate.
Qed.

(** ** A concrete case *)
Definition p_ex : params := {| chi2_cdf := fun g d => (g / IZR d)%R; significance := (95/100)%R; criterion := Some (fun d => d <=? 2); set_order := nodup Nat.eq_dec |}.
Definition tests_ex : list test := [(0, 1, [])%nat; (2, 0, [1])%nat; (0, 1, [])%nat; (1, 2, [0])%nat].
Lemma p_ex_ok : order_ok p_ex.
Proof. intros l. split; [apply NoDup_nodup|]. intros x. apply nodup_In. Qed.
Lemma Dex_wf_for im : wf_for (Dex 3) im.
Proof. split; [apply Dex_wf|]. split; [discriminate|]. destruct im; try exact I. split; [apply Dex_no_minus_one|apply Dex_threshold]. Qed.
Lemma tests_ex_wf : Forall (wf_test (Dex 3)) tests_ex.
Proof.
  apply Forall_forall. intros t Ht. unfold tests_ex in Ht. cbn [In] in Ht.
  repeat (destruct Ht as [<-|Ht]; [split; [repeat constructor; cbn [In]; intuition discriminate|cbn [In ncols Dex]; intros c Hc; intuition lia]|]). destruct Ht.
Qed.
(** some tests have enough samples and some have not; the calculators disagree *)
Example C13_nonvacuous : (forall im, wf_for (Dex 3) im) /\ order_ok p_ex /\ Forall (wf_test (Dex 3)) tests_ex /\ compatible WithDcMI CachedStructuralDoF /\
  map (fun t : test => let '(X, Y, Z) := t in (structural_dof (Dex 3) X Y Z, unadjusted_dof (Dex 3) X Y Z)) tests_ex = [(2, 2); (2, 8); (2, 2); (1, 6)] /\
  enough (Dex 3) p_ex (dof_for (Dex 3) UnadjustedDoF 2 0 [1%nat]) = false /\ enough (Dex 3) p_ex (dof_for (Dex 3) CachedStructuralDoF 2 0 [1%nat]) = true.
Proof. split; [apply Dex_wf_for|]. split; [apply p_ex_ok|]. split; [apply tests_ex_wf|]. split; [discriminate|]. split; [vm_compute; reflexivity|]. split; vm_compute; reflexivity. Qed.
(** a G statistic that is not zero *)
Definition Dxy : dataset := {| rows := [[0; 0]; [1; 1]]; ncols := 2; colvals := fun _ => Some [0; 1]; threshold := 0 |}.
Example C13_nonzero : G_statistic Dxy 0 1 [] = (4 * ln 2)%R.
Proof.
  unfold G_statistic, cmi, pr3, pr2, pr1, pr. cbn -[ln INR Rmult Rplus Rinv]. 
  replace (INR 2) with 2%R by (simpl; lra). rewrite !Rplus_0_r.
  match goal with |- context [ln ?e] => replace e with 2%R by (field; lra) end. field.
Qed.
Example C14_exact_entropies_example : exact_entropies Dxy [([0%nat], ln 2)].
Proof.
  intros cols H. cbn [assoc]. destruct (list_eqb (frozenset cols) [0%nat]) eqn:E; [|discriminate]. intros EH. injection EH as <-. apply list_eqb_eq in E.
  assert (Es : forall c, In c cols <-> In c [0%nat]) by (intros c; rewrite <- frozenset_in, E; reflexivity).
  rewrite (SameInfo_Proofs.same_entropy (data_space Dxy) (proj cols) (proj [0%nat])) by (apply proj_same; assumption).
  unfold entropy, pr1, pr. cbn -[ln INR Rmult Rplus Rinv]. replace (INR 2) with 2%R by (simpl; lra). rewrite !Rplus_0_r. rewrite ln_Rinv by lra. field.
Qed.
