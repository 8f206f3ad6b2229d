(** C53: Markov-boundary discovery from data: the algorithms together with the G-tests. *)
From Coq Require Import Reals Lra.
From Verif Require Import Base AD_Model AD_Query_Model AD_Spec AD_Proofs AD_Examples Key_Model PMF_Model Prob_Spec Prob_Proofs Info_Spec Info_Proofs Graph_Spec
  MB_Model MB_Spec MB_Cache_Proofs DAG_Sep_Proofs IPCMB_Proofs IPCMB_Exact_Proofs IAMB_Proofs MB_Properties MB_Log_Spec MB_Log_Proofs MB_Log_Properties MB_Sim_Proofs
  GTest_Model GTest_Spec GTest_Tables_Proofs GTest_DoF_Proofs GTest_Cache_Proofs GTest_Impl_Proofs GTest_AD_Proofs GTest_Proofs GTest_More_Proofs GTest_Properties
  BN_Model CMI_Model CMI_Properties Learn_Model.
Open Scope nat_scope.

(** ** Vocabulary *)
(** the result says something about x and y *)
Definition result_about (x y : nat) (r : result) : Prop := (r_X r = x /\ r_Y r = y) \/ (r_X r = y /\ r_Y r = x).
(** every result in the list is a right G-test of the data, and the results are numbered from 1 *)
Definition right_results (D : dataset) (p : params) (kind : dof_kind) (rs : list result) : Prop :=
  forall i r, nth_error rs i = Some r ->
    wf_test D (r_X r, r_Y r, r_Z r) /\ expected_result D p kind (Z.of_nat i + 1) (r_X r) (r_Y r) (r_Z r) r.
(** the order of iterating over a set may depend on everything that was tested so far *)
Definition any_order (order : list result -> list nat -> list nat) : Prop := forall rs l, Permutation l (order rs l).
(** the G-test, asked about columns of U, tells what is d-separated in the graph, and never lacks samples *)
Definition tests_tell (D : dataset) (p : params) (kind : dof_kind) (U : list nat) (E : nat -> nat -> Prop) : Prop :=
  forall x y Zl, sensible_question U x y Zl ->
    enough D p (dof_for D kind x y Zl) = true /\
    ((chi2_cdf p (G_statistic D x y Zl) (dof_for D kind x y Zl) < significance p)%R <-> pearl E x Zl y).

(** the conditional mutual information in the data, of the conditioned variables *)
Definition data_cmi (D : dataset) (x y : nat) (Zl : list nat) : R := cmi (data_space D) (proj [x]) (proj [y]) (proj Zl).

(** the result of a test with enough samples whose chi-square value is not below the significance *)
Definition found_dependent (D : dataset) (p : params) (kind : dof_kind) (r : result) : Prop :=
  enough D p (dof_for D kind (r_X r) (r_Y r) (r_Z r)) = true /\
  (significance p <= chi2_cdf p (G_statistic D (r_X r) (r_Y r) (r_Z r)) (dof_for D kind (r_X r) (r_Y r) (r_Z r)))%R.
(** the last result about x and y *)
Definition last_result (rs : list result) (x y : nat) (r : result) : Prop :=
  exists before after, rs = before ++ r :: after /\ result_about x y r /\ forall r', In r' after -> ~ result_about x y r'.

(** ** Lemmas *)
Lemma evaluates_unique {A} (f : nat -> res A) a b : evaluates f a -> evaluates f b -> a = b.
Proof. intros (_ & n & H1) (_ & m & H2). rewrite <- (H1 (Nat.max n m)), <- (H2 (Nat.max n m)) by lia. reflexivity. Qed.
Section Learn.
  Variables (D : dataset) (p : params) (im : impl) (kind : dof_kind).
  Hypothesis HW : wf_for D im.
  Hypothesis HC : compatible im kind.
  Hypothesis HO : order_ok p.
  Let V := seq 0 (ncols D).
  Definition ok_state (st : state) : Prop :=
    inv D im kind st /\ ci_test_counter st = Z.of_nat (length (results st)) /\ right_results D p kind (results st).

  Lemma sensible_wf x y Zl : sensible_question V x y Zl -> wf_test D (x, y, Zl).
  Proof.
    intros (H1 & H2 & H3 & H4 & H5 & H6 & H7). split.
    - constructor; [intros [H|H]; [congruence|contradiction]|]. constructor; assumption.
    - intros c [<- |[<- |Hc]]; [apply in_seq in H5; lia|apply in_seq in H6; lia|apply H7, in_seq in Hc; lia].
  Qed.
  (** what one call does *)
  Lemma gtest_step st x y Zl : ok_state st -> wf_test D (x, y, Zl) ->
    exists r st', gtest_ci D p im kind st x y Zl = (match r_independent r with Some b => Ok b | None => Err InsufficientSamples end, st') /\
      ok_state st' /\ results st' = results st ++ [r] /\ expected_result D p kind (Z.of_nat (length (results st)) + 1) x y Zl r.
  Proof.
    intros (Hi & Hn & Hr) Hw. destruct (run_test_ok D (proj1 HW) (proj1 (proj2 HW)) p HO im kind st x y Zl HW HC Hi Hw) as (r & st' & E & Hi' & He & Hres & Hcnt & _).
    exists r, st'. split; [|split; [|split; [exact Hres|rewrite <- Hn; exact He]]].
    - unfold gtest_ci, conditionally_independent. rewrite E. cbn [bind]. unfold outcome_of. destruct (r_independent r); reflexivity.
    - split; [exact Hi'|]. split; [rewrite Hcnt, Hres, app_length, Hn; cbn; lia|]. intros i r0 Hi0. rewrite Hres in Hi0.
      destruct (Nat.lt_ge_cases i (length (results st))) as [H|H].
      + rewrite nth_error_app1 in Hi0 by exact H. apply Hr; exact Hi0.
      + rewrite nth_error_app2 in Hi0 by exact H. destruct (i - length (results st)) as [|k] eqn:Ek; [|destruct k; discriminate]. injection Hi0 as <-.
        assert (i = length (results st)) by lia. subst i. pose proof He as (_ & E1 & E2 & E3 & _). rewrite E1, E2, E3. split; [exact Hw|]. rewrite <- Hn. exact He.
  Qed.
  Lemma gtest_sensibly : answers_sensibly (gtest_ci D p im kind) V ok_state.
  Proof.
    intros st x y Zl Hs Hq. destruct (gtest_step st x y Zl Hs (sensible_wf _ _ _ Hq)) as (r & st' & E & Hs' & _ & _).
    eexists; eexists. split; [exact E|]. split; [exact Hs'|]. destruct (r_independent r) as [[]|]; auto.
  Qed.
  Lemma gtest_decides U E : incl U V -> tests_tell D p kind U E -> decides (gtest_ci D p im kind) U ok_state (pearl E).
  Proof.
    intros HU Ht st x y Zl Hs Hq. assert (Hq' : sensible_question V x y Zl).
    { destruct Hq as (H1 & H2 & H3 & H4 & H5 & H6 & H7). repeat split; auto. intros z Hz. apply HU, H7, Hz. }
    destruct (gtest_step st x y Zl Hs (sensible_wf _ _ _ Hq')) as (r & st' & Eq & Hs' & _ & He). destruct (Ht x y Zl Hq) as (Hen & Hsep).
    destruct He as (_ & _ & _ & _ & _ & He & _). destruct (He Hen) as (_ & _ & b & Eb & Hb). rewrite Eb in Eq. exists b, st'. split; [exact Eq|]. split; [exact Hs'|]. rewrite Hb. exact Hsep.
  Qed.
  Lemma started : exists st, start D im kind None None no_files = Ok st /\ ok_state st /\ results st = [].
  Proof.
    destruct (start_fresh D p im kind HO HW HC) as (st & E & Hi & Hr & Hn). exists st. split; [exact E|]. split; [|exact Hr].
    split; [exact Hi|]. rewrite Hr, Hn. split; [reflexivity|]. intros i r Hir. destruct i; discriminate.
  Qed.

  (** the object's own list of results as a log *)
  Definition as_answer (r : result) : answered := (r_X r, r_Y r, r_Z r, match r_independent r with Some b => Ok b | None => Err InsufficientSamples end).
  Definition gtest_log (st : state) : list answered := map as_answer (results st).
  Lemma decide_shows N i X Y Zl dof g r : decide p N i X Y Zl dof g = Ok r -> r_X r = X /\ r_Y r = Y /\ r_Z r = Zl.
  Proof. unfold decide. destruct (sufficient_samples p N dof); [destruct g as [g|e]; cbn [bind]; [|discriminate]|]; intros E; injection E as <-; auto. Qed.
  Lemma run_test_shows st X Y Zl r st' : run_test D p im kind st X Y Zl = Ok (r, st') -> r_X r = X /\ r_Y r = Y /\ r_Z r = Zl /\ results st' = results st ++ [r].
  Proof.
    unfold run_test. intros H. destruct im as [|dyn|].
    - destruct (plain_tables _ _ _ _ _ _) as [[[[[CXY CX] CY] PZ] c']|]; cbn [bind] in H; [|discriminate].
      destruct (calculate_DoF _ _ _ _ _ _ _ _ _) as [[[dof CX'] CY']|]; cbn [bind] in H; [|discriminate].
      destruct (decide _ _ _ _ _ _ _ _) as [r0|] eqn:Ed; cbn [bind] in H; [|discriminate]. injection H as <- <-. destruct (decide_shows _ _ _ _ _ _ _ _ Ed) as (H1 & H2 & H3). auto.
    - destruct (of_option AttributeError (ad_tree st)) as [t|]; cbn [bind] in H; [|discriminate].
      destruct (ad_tables _ _ _ _ _ _ _ _) as [[[[[[CXY CX] CY] PZ] c'] t']|]; cbn [bind] in H; [|discriminate].
      destruct (calculate_DoF _ _ _ _ _ _ _ _ _) as [[[dof CX'] CY']|]; cbn [bind] in H; [|discriminate].
      destruct (decide _ _ _ _ _ _ _ _) as [r0|] eqn:Ed; cbn [bind] in H; [|discriminate]. injection H as <- <-. destruct (decide_shows _ _ _ _ _ _ _ _ Ed) as (H1 & H2 & H3). auto.
    - destruct (G_from_entropies _ _ _ _ _ _ _ _) as [[G h]|]; cbn [bind] in H; [|discriminate].
      destruct (calculate_DoF _ _ _ _ _ _ _ _ _) as [[[dof CX'] CY']|]; cbn [bind] in H; [|discriminate].
      destruct (decide _ _ _ _ _ _ _ _) as [r0|] eqn:Ed; cbn [bind] in H; [|discriminate]. injection H as <- <-. destruct (decide_shows _ _ _ _ _ _ _ _ Ed) as (H1 & H2 & H3). auto.
  Qed.
  (** the same object with every other exception replaced (none is ever raised on sensible questions) *)
  Definition guarded_ci (st : state) (X Y : nat) (Zl : list nat) : res bool * state :=
    match conditionally_independent D p im kind st X Y Zl with Err e => (Err ValueError, st) | _ => gtest_ci D p im kind st X Y Zl end.
  Lemma guarded_same st X Y Zl r st' : guarded_ci st X Y Zl = (r, st') -> (r = Ok true \/ r = Ok false \/ r = Err InsufficientSamples) -> gtest_ci D p im kind st X Y Zl = (r, st').
  Proof. unfold guarded_ci. destruct (conditionally_independent D p im kind st X Y Zl); [auto|]. intros E. injection E as <- <-. intros [H|[H|H]]; discriminate. Qed.
  Lemma guarded_sensibly : answers_sensibly guarded_ci V ok_state.
  Proof.
    intros st x y Zl Hs Hq. destruct (gtest_sensibly st x y Zl Hs Hq) as (r & st' & E & H). exists r, st'. split; [|exact H]. unfold guarded_ci.
    destruct (conditionally_independent D p im kind st x y Zl) eqn:Ec; [exact E|]. exfalso.
    destruct (gtest_step st x y Zl Hs (sensible_wf _ _ _ Hq)) as (r0 & st0 & _). destruct Hs as (Hi & _). 
    destruct (run_test_ok D (proj1 HW) (proj1 (proj2 HW)) p HO im kind st x y Zl HW HC Hi (sensible_wf _ _ _ Hq)) as (r1 & st1 & E1 & _).
    unfold conditionally_independent in Ec. rewrite E1 in Ec. discriminate.
  Qed.
  Lemma guarded_keeps : keeps_log guarded_ci gtest_log.
  Proof.
    intros st x y Zl r st'. unfold guarded_ci, gtest_ci, conditionally_independent. destruct (run_test D p im kind st x y Zl) as [[r0 st0]|e] eqn:E; cbn [bind].
    - destruct (run_test_shows _ _ _ _ _ _ E) as (H1 & H2 & H3 & H4). unfold gtest_log. unfold outcome_of. intros Er _.
      assert (Es : st0 = st' /\ r = match r_independent r0 with Some b => Ok b | None => Err InsufficientSamples end) by (destruct (r_independent r0); injection Er as <- <-; auto).
      destruct Es as (<- & ->). rewrite H4, map_app. cbn [map]. unfold as_answer. rewrite H1, H2, H3. reflexivity.
    - intros Er Hr. injection Er as <- <-. discriminate (Hr _ eq_refl).
  Qed.
  Lemma guarded_run order pc_only U T st MB st' : evaluates (ipcmb_discover_mb guarded_ci (fun st => order (results st)) pc_only U T st) (Ok (MB, st')) ->
    evaluates (ipcmb_discover_mb (gtest_ci D p im kind) (fun st => order (results st)) pc_only U T st) (Ok (MB, st')).
  Proof.
    intros (_ & n & En). split; [discriminate|]. exists n. intros f Hf.
    destruct (sim_ipcmb guarded_ci (gtest_ci D p im kind) (fun st => order (results st)) (fun st => order (results st)) eq) with (pc_only := pc_only) (U := U) (T := T) (fuel := f) (a := st) (b := st) (MB := MB) (a' := st') as (b' & E3 & Eb).
    - intros a b x y Zl r a' <- Eg Hrr. exists a'. split; [|reflexivity]. apply guarded_same; assumption.
    - intros a b l <-. reflexivity.
    - reflexivity.
    - apply En, Hf.
    - subst b'. exact E3.
  Qed.
End Learn.

(** what a right result is, given the question *)
Definition the_result (D : dataset) (p : params) (kind : dof_kind) (n : BinNums.Z) (X Y : nat) (Zl : list nat) : result :=
  let dof := dof_for D kind X Y Zl in
  if enough D p dof
  then {| r_index := n; r_X := X; r_Y := Y; r_Z := Zl; r_independent := Some (if Rlt_dec (chi2_cdf p (G_statistic D X Y Zl) dof) (significance p) then true else false);
          r_G := G_statistic D X Y Zl; r_p := chi2_cdf p (G_statistic D X Y Zl) dof; r_DoF := dof |}
  else {| r_index := n; r_X := X; r_Y := Y; r_Z := Zl; r_independent := None; r_G := (-1)%R; r_p := (-1)%R; r_DoF := dof |}.
Lemma the_result_expected D p kind n X Y Zl : expected_result D p kind n X Y Zl (the_result D p kind n X Y Zl).
Proof.
  unfold the_result, expected_result. cbv zeta. destruct (enough D p (dof_for D kind X Y Zl)) eqn:E; cbn; repeat split; auto; try discriminate.
  eexists. split; [reflexivity|]. destruct (Rlt_dec _ _); split; auto; discriminate.
Qed.
Definition asks_well (D : dataset) (X Y : nat) (Zl : list nat) : bool :=
  (if ListDec.NoDup_dec Nat.eq_dec (X :: Y :: Zl) then true else false) && forallb (fun c => c <? ncols D) (X :: Y :: Zl).
Lemma asks_well_wf D X Y Zl : asks_well D X Y Zl = true <-> wf_test D (X, Y, Zl).
Proof.
  unfold asks_well, wf_test. rewrite andb_true_iff, forallb_forall. split.
  - intros (H1 & H2). destruct (ListDec.NoDup_dec Nat.eq_dec (X :: Y :: Zl)); [|discriminate]. split; [assumption|]. intros c Hc. apply Nat.ltb_lt, H2, Hc.
  - intros (H1 & H2). destruct (ListDec.NoDup_dec Nat.eq_dec (X :: Y :: Zl)); [|contradiction]. split; [reflexivity|]. intros c Hc. apply Nat.ltb_lt, H2, Hc.
Qed.
(** the G-test as a function of the data: its state is the list of results *)
Definition ideal_ci (D : dataset) (p : params) (kind : dof_kind) (rs : list result) (X Y : nat) (Zl : list nat) : res bool * list result :=
  if asks_well D X Y Zl then
    let r := the_result D p kind (Z.of_nat (length rs) + 1) X Y Zl in
    (match r_independent r with Some b => Ok b | None => Err InsufficientSamples end, rs ++ [r])
  else (Err ValueError, rs).
Lemma ideal_sensibly D p kind : answers_sensibly (ideal_ci D p kind) (seq 0 (ncols D)) (fun _ => True).
Proof.
  intros rs x y Zl _ Hq. unfold ideal_ci. rewrite (proj2 (asks_well_wf D x y Zl) (sensible_wf D x y Zl Hq)). cbv zeta. eexists; eexists. split; [reflexivity|]. split; [exact Logic.I|].
  destruct (r_independent _) as [[]|]; auto.
Qed.

Section Agree.
  Variables (D : dataset) (p : params) (im : impl) (kind kind0 : dof_kind).
  Hypothesis HW : wf_for D im.
  Hypothesis HC : compatible im kind.
  Hypothesis HO : order_ok p.
  Hypothesis Hk : kind = UnadjustedDoF <-> kind0 = UnadjustedDoF.
  Let Rel (rs : list result) (st : state) : Prop := ok_state D p im kind st /\ results st = rs.
  Lemma same_dof X Y Zl : dof_for D kind X Y Zl = dof_for D kind0 X Y Zl.
  Proof. destruct kind, kind0; cbn; try reflexivity; exfalso; destruct Hk as (H1 & H2); try (discriminate (H1 eq_refl)); discriminate (H2 eq_refl). Qed.
  Lemma ideal_step rs st x y Zl r rs' : Rel rs st -> ideal_ci D p kind0 rs x y Zl = (r, rs') -> (r = Ok true \/ r = Ok false \/ r = Err InsufficientSamples) ->
    exists st', gtest_ci D p im kind st x y Zl = (r, st') /\ Rel rs' st'.
  Proof.
    intros (Hs & Hr) E Hrr. unfold ideal_ci in E. destruct (asks_well D x y Zl) eqn:Ew; [|injection E as <- <-; destruct Hrr as [H|[H|H]]; discriminate].
    apply asks_well_wf in Ew. destruct (gtest_step D p im kind HW HC HO st x y Zl Hs Ew) as (r0 & st' & Eg & Hs' & Hres & He).
    assert (E0 : r0 = the_result D p kind0 (Z.of_nat (length rs) + 1) x y Zl).
    { rewrite Hr in He. eapply expected_unique; [apply same_dof|exact He|apply the_result_expected]. }
    cbv zeta in E. rewrite <- E0 in E. exists st'. rewrite Eg. injection E as <- <-. split; [reflexivity|]. split; [exact Hs'|]. rewrite Hres, Hr. reflexivity.
  Qed.
  Lemma ideal_ipcmb (order : list result -> list nat -> list nat) pc_only U T : any_order order -> NoDup U -> incl U (seq 0 (ncols D)) -> In T (seq 0 (ncols D)) ->
    exists st MB st', start D im kind None None no_files = Ok st /\
      (forall f, S (length U) <= f -> ipcmb_discover_mb (ideal_ci D p kind0) order pc_only U T [] f = Ok (MB, results st')) /\
      (forall f, S (length U) <= f -> ipcmb_discover_mb (gtest_ci D p im kind) (fun st => order (results st)) pc_only U T st f = Ok (MB, st')) /\
      ok_state D p im kind st' /\ StronglySorted lt MB /\ (forall x, In x MB -> In x U /\ x <> T).
  Proof.
    intros Ho HN HU HT. destruct (started D p im kind HW HC HO) as (st & E & Hs & Hr). exists st.
    destruct (ipcmb_total (gtest_ci D p im kind) (fun st => order (results st)) (seq 0 (ncols D)) (ok_state D p im kind) pc_only U T st (gtest_sensibly D p im kind HW HC HO)) as (MB & st' & E2 & Hs' & HM & Hin); auto; [intros s l; apply Ho|].
    destruct (ipcmb_total (ideal_ci D p kind0) order (seq 0 (ncols D)) (fun _ => True) pc_only U T [] (ideal_sensibly D p kind0)) as (MB0 & rs & E1 & _); auto.
    exists MB, st'. split; [exact E|]. split; [|split; [exact E2|]; auto]. intros f Hf.
    destruct (sim_ipcmb (ideal_ci D p kind0) (gtest_ci D p im kind) order (fun st => order (results st)) Rel) with (pc_only := pc_only) (U := U) (T := T) (fuel := f) (a := @nil result) (b := st) (MB := MB0) (a' := rs) as (b' & E3 & (_ & Hrel)).
    - intros; eapply ideal_step; eassumption.
    - intros rs0 s l (_ & ->). reflexivity.
    - split; [exact Hs|exact Hr].
    - apply E1; exact Hf.
    - rewrite (E2 f Hf) in E3. injection E3 as -> ->. rewrite Hrel. apply E1; exact Hf.
  Qed.
End Agree.

(** what a right result says *)
Lemma right_says D p kind rs : right_results D p kind rs -> forall r, In r rs -> (says (as_answer r) = Ok false <-> enough D p (dof_for D kind (r_X r) (r_Y r) (r_Z r)) = true /\
        (significance p <= chi2_cdf p (G_statistic D (r_X r) (r_Y r) (r_Z r)) (dof_for D kind (r_X r) (r_Y r) (r_Z r)))%R).
Proof.
  intros Hr r Hin. apply In_nth_error in Hin. destruct Hin as (i & Hi). destruct (Hr i r Hi) as (_ & (_ & _ & _ & _ & _ & H1 & H2)). unfold says, as_answer. cbn [snd].
  destruct (enough D p (dof_for D kind (r_X r) (r_Y r) (r_Z r))).
  - destruct (H1 eq_refl) as (_ & _ & b & -> & Hb). split.
    + intros Eq. injection Eq as ->. split; [reflexivity|]. apply Rnot_lt_le. intros Hlt. apply Hb in Hlt. discriminate.
    + intros (_ & Hle). destruct b; [|reflexivity]. exfalso. apply (Rle_not_lt _ _ Hle). apply Hb. reflexivity.
  - destruct (H2 eq_refl) as (-> & _). split; [discriminate|intros (H & _); discriminate].
Qed.

(** ** The theorems: IPC-MB *)
(** IPC-MB with any of the G-tests on any dataset, whatever the order of set iteration: it completes; it
    returns variables other than the target, in increasing order; and all the results it leaves behind are
    right G-tests of the data, numbered in the order of the tests. *)
Theorem C53_ipcmb_from_data : forall D p im kind order pc_only U T,
  wf_for D im -> compatible im kind -> order_ok p -> any_order order -> NoDup U -> (forall c, In c U -> c < ncols D) -> In T U ->
  exists st MB st', start D im kind None None no_files = Ok st /\
    evaluates (ipcmb_discover_mb (gtest_ci D p im kind) (fun st => order (results st)) pc_only U T st) (Ok (MB, st')) /\
    StronglySorted lt MB /\ (forall x, In x MB -> In x U /\ x <> T) /\ right_results D p kind (results st').
Proof.
  intros D p im kind order pc_only U T HW HC HO Ho HN HU HT. assert (HUi : incl U (seq 0 (ncols D))) by (intros c Hc; apply in_seq; specialize (HU c Hc); lia).
  destruct (ideal_ipcmb D p im kind kind HW HC HO (iff_refl _) order pc_only U T Ho HN HUi (HUi _ HT)) as (st & MB & st' & E & _ & E2 & (_ & _ & Hr) & HM & Hin).
  exists st, MB, st'. split; [exact E|]. split; [eapply evaluates_from; exact E2|]. auto.
Qed.
Print Assumptions C53_ipcmb_from_data.
(** Two G-test implementations (with degrees of freedom of the same kind) lead to the same boundary through
    the same tests, and leave the same results. *)
Theorem C53_implementations_agree : forall D p im1 im2 kind1 kind2 order pc_only U T,
  wf_for D im1 -> wf_for D im2 -> compatible im1 kind1 -> compatible im2 kind2 -> (kind1 = UnadjustedDoF <-> kind2 = UnadjustedDoF) ->
  order_ok p -> any_order order -> NoDup U -> (forall c, In c U -> c < ncols D) -> In T U ->
  exists st1 st2 MB st1' st2', start D im1 kind1 None None no_files = Ok st1 /\ start D im2 kind2 None None no_files = Ok st2 /\
    evaluates (ipcmb_discover_mb (gtest_ci D p im1 kind1) (fun st => order (results st)) pc_only U T st1) (Ok (MB, st1')) /\
    evaluates (ipcmb_discover_mb (gtest_ci D p im2 kind2) (fun st => order (results st)) pc_only U T st2) (Ok (MB, st2')) /\
    results st1' = results st2'.
Proof.
  intros D p im1 im2 kind1 kind2 order pc_only U T W1 W2 K1 K2 Hk HO Ho HN HU HT. assert (HUi : incl U (seq 0 (ncols D))) by (intros c Hc; apply in_seq; specialize (HU c Hc); lia).
  destruct (ideal_ipcmb D p im1 kind1 kind1 W1 K1 HO (iff_refl _) order pc_only U T Ho HN HUi (HUi _ HT)) as (st1 & MB1 & st1' & E1 & I1 & F1 & _).
  destruct (ideal_ipcmb D p im2 kind2 kind1 W2 K2 HO (iff_sym Hk) order pc_only U T Ho HN HUi (HUi _ HT)) as (st2 & MB2 & st2' & E2 & I2 & F2 & _).
  specialize (I1 (S (length U)) (le_n _)). rewrite (I2 (S (length U)) (le_n _)) in I1. injection I1 as EM Er. subst MB2.
  exists st1, st2, MB1, st1', st2'. repeat split; auto; [discriminate|exists (S (length U)); exact F1|discriminate|exists (S (length U)); exact F2].
Qed.
Print Assumptions C53_implementations_agree.

(** The list of results explains the parents and children found: exactly the variables that were tested
    against the target and for which each test had enough samples and a chi-square value not below the
    significance. *)
Theorem C53_parents_children_explained : forall D p im kind order U T,
  wf_for D im -> compatible im kind -> order_ok p -> any_order order -> NoDup U -> (forall c, In c U -> c < ncols D) -> In T U ->
  exists st PC st', start D im kind None None no_files = Ok st /\
    evaluates (ipcmb_discover_mb (gtest_ci D p im kind) (fun st => order (results st)) true U T st) (Ok (PC, st')) /\ right_results D p kind (results st') /\
    forall x, In x PC <-> In x U /\ x <> T /\ (exists r, In r (results st') /\ result_about x T r) /\
      forall r, In r (results st') -> result_about x T r ->
        enough D p (dof_for D kind (r_X r) (r_Y r) (r_Z r)) = true /\
        (significance p <= chi2_cdf p (G_statistic D (r_X r) (r_Y r) (r_Z r)) (dof_for D kind (r_X r) (r_Y r) (r_Z r)))%R.
Proof.
  intros D p im kind order U T HW HC HO Ho HN HU HT. assert (HUi : incl U (seq 0 (ncols D))) by (intros c Hc; apply in_seq; specialize (HU c Hc); lia).
  destruct (ideal_ipcmb D p im kind kind HW HC HO (iff_refl _) order true U T Ho HN HUi (HUi _ HT)) as (st & PC & st' & E & _ & E2 & (_ & _ & Hr) & _).
  destruct (started D p im kind HW HC HO) as (st0 & E0 & Hs & Hr0). rewrite E in E0. injection E0 as <-.
  pose proof (guarded_sensibly D p im kind HW HC HO) as Gs. pose proof (guarded_keeps D p im kind HW HC) as Gk. assert (Git : iterates (fun st : state => order (results st))) by (intros s l; apply Ho).
  assert (G0 : gtest_log st = []) by (unfold gtest_log; rewrite Hr0; reflexivity).
  destruct (C52_ipcmb_parents_children_explained (guarded_ci D p im kind) gtest_log (ok_state D p im kind) (fun st => order (results st)) U (seq 0 (ncols D)) T st Gs Gk Git HN HUi HT Hs G0) as (PC1 & st1 & Ev & Hx).
  pose proof (guarded_run D p im kind order true U T st PC1 st1 Ev) as Ev1. assert (Ev2 : evaluates (ipcmb_discover_mb (gtest_ci D p im kind) (fun st => order (results st)) true U T st) (Ok (PC, st'))) by (eapply evaluates_from; exact E2).
  pose proof (evaluates_unique _ _ _ Ev1 Ev2) as Eu. injection Eu as -> ->. exists st, PC, st'. split; [exact E|]. split; [exact Ev2|]. split; [exact Hr|].
  assert (Habout : forall x r, about x T (as_answer r) <-> result_about x T r) by (intros x r; unfold as_answer, about, result_about; tauto).
  pose proof (right_says D p kind (results st') Hr) as Hsays.
  intros x. rewrite Hx. unfold gtest_log. split.
  - intros (H1 & H2 & (e & He & Ha) & H4). split; [exact H1|]. split; [exact H2|]. apply in_map_iff in He. destruct He as (r & <- & Hin). split; [exists r; split; [exact Hin|apply Habout; exact Ha]|].
    intros r' Hin' Ha'. apply Hsays; [exact Hin'|]. apply H4; [apply in_map; exact Hin'|apply Habout; exact Ha'].
  - intros (H1 & H2 & (r & Hin & Ha) & H4). split; [exact H1|]. split; [exact H2|]. split; [exists (as_answer r); split; [apply in_map; exact Hin|apply Habout; exact Ha]|].
    intros e He Ha'. apply in_map_iff in He. destruct He as (r' & <- & Hin'). apply Hsays; [exact Hin'|]. apply H4; [exact Hin'|apply Habout; exact Ha'].
Qed.
Print Assumptions C53_parents_children_explained.

(** The whole boundary: the last result about each returned variable and the target says "dependent"; if no test
    lacked samples, every such variable is returned.  Every variable was tested against the target. *)
Theorem C53_boundary_explained : forall D p im kind order U T,
  wf_for D im -> compatible im kind -> order_ok p -> any_order order -> NoDup U -> (forall c, In c U -> c < ncols D) -> In T U ->
  exists st MB st', start D im kind None None no_files = Ok st /\
    evaluates (ipcmb_discover_mb (gtest_ci D p im kind) (fun st => order (results st)) false U T st) (Ok (MB, st')) /\ right_results D p kind (results st') /\
    (forall x, In x MB -> exists r, last_result (results st') x T r /\ found_dependent D p kind r) /\
    ((forall r, In r (results st') -> enough D p (dof_for D kind (r_X r) (r_Y r) (r_Z r)) = true) ->
       forall x r, In x U -> x <> T -> last_result (results st') x T r -> found_dependent D p kind r -> In x MB) /\
    (forall x, In x U -> x <> T -> exists r, In r (results st') /\ result_about x T r).
Proof.
  intros D p im kind order U T HW HC HO Ho HN HU HT. assert (HUi : incl U (seq 0 (ncols D))) by (intros c Hc; apply in_seq; specialize (HU c Hc); lia).
  destruct (ideal_ipcmb D p im kind kind HW HC HO (iff_refl _) order false U T Ho HN HUi (HUi _ HT)) as (st & PC & st' & E & _ & E2 & (_ & _ & Hr) & _).
  destruct (started D p im kind HW HC HO) as (st0 & E0 & Hs & Hr0). rewrite E in E0. injection E0 as <-.
  pose proof (guarded_sensibly D p im kind HW HC HO) as Gs. pose proof (guarded_keeps D p im kind HW HC) as Gk. assert (Git : iterates (fun st : state => order (results st))) by (intros s l; apply Ho).
  assert (G0 : gtest_log st = []) by (unfold gtest_log; rewrite Hr0; reflexivity).
  destruct (C52_ipcmb_boundary_explained (guarded_ci D p im kind) gtest_log (ok_state D p im kind) (fun st => order (results st)) U (seq 0 (ncols D)) T st Gs Gk Git HN HUi HT Hs G0) as (MB1 & st1 & Ev & Hx1 & Hx2 & Hx3).
  pose proof (guarded_run D p im kind order false U T st MB1 st1 Ev) as Ev1. assert (Ev2 : evaluates (ipcmb_discover_mb (gtest_ci D p im kind) (fun st => order (results st)) false U T st) (Ok (PC, st'))) by (eapply evaluates_from; exact E2).
  pose proof (evaluates_unique _ _ _ Ev1 Ev2) as Eu. injection Eu as -> ->. exists st, PC, st'. split; [exact E|]. split; [exact Ev2|]. split; [exact Hr|].
  assert (Habout : forall x r, about x T (as_answer r) <-> result_about x T r) by (intros x r; unfold as_answer, about, result_about; tauto).
  pose proof (right_says D p kind (results st') Hr) as Hsays. split; [|split].
  - intros x Hx. destruct (Hx1 x Hx) as (bf & e & af & Eq & Ha & Hsay & Hno). unfold gtest_log in Eq. apply map_eq_app in Eq. destruct Eq as (l1 & l2 & Eq & <- & E3). destruct l2 as [|r l2]; [discriminate|].
    cbn [map] in E3. pose proof (f_equal (@tl _) E3) as E9. pose proof (f_equal (hd (as_answer r)) E3) as E4. cbn [hd tl] in E9, E4. subst af e. clear E3.
    exists r. split.
    + exists l1, l2. split; [exact Eq|]. split; [apply Habout; exact Ha|]. intros r' Hin Ha'. apply (Hno (as_answer r')); [apply in_map; exact Hin|apply Habout; exact Ha'].
    + apply Hsays; [rewrite Eq; apply in_or_app; right; left; reflexivity|exact Hsay].
  - intros Hen x r Hx Hxt (bf & af & Eq & Ha & Hno) Hf. assert (Hin : In r (results st')) by (rewrite Eq; apply in_or_app; right; left; reflexivity). apply Hx2; auto.
    + intros e He. unfold gtest_log in He. apply in_map_iff in He. destruct He as (r' & <- & Hin'). apply In_nth_error in Hin' as Hn. destruct Hn as (i & Hi). destruct (Hr i r' Hi) as (_ & (_ & _ & _ & _ & _ & H1 & _)).
      destruct (H1 (Hen r' Hin')) as (_ & _ & b & Eb & _). unfold says, as_answer. cbn [snd]. rewrite Eb. discriminate.
    + exists (map as_answer bf), (as_answer r), (map as_answer af). unfold gtest_log. rewrite Eq, map_app. split; [reflexivity|]. split; [apply Habout; exact Ha|]. split; [apply Hsays; [exact Hin|exact Hf]|].
      intros e He Hae. apply in_map_iff in He. destruct He as (r' & <- & Hin'). apply (Hno r' Hin'). apply Habout; exact Hae.
  - intros x Hx Hxt. destruct (Hx3 x Hx Hxt) as (e & He & Ha). unfold gtest_log in He. apply in_map_iff in He. destruct He as (r & <- & Hin). exists r. split; [exact Hin|apply Habout; exact Ha].
Qed.
Print Assumptions C53_boundary_explained.

(** If, on these data, the tests tell what is d-separated in a DAG over the variables, then the result is the
    target's Markov boundary in that DAG (its parents and children in pc_only mode). *)
Theorem C53_exact_boundary_from_data : forall D p im kind order U E T,
  wf_for D im -> compatible im kind -> order_ok p -> any_order order -> (forall c, In c U -> c < ncols D) -> In T U ->
  dag_over U E -> tests_tell D p kind U E ->
  exists st MB PC st1 st2, start D im kind None None no_files = Ok st /\
    evaluates (ipcmb_discover_mb (gtest_ci D p im kind) (fun st => order (results st)) false U T st) (Ok (MB, st1)) /\ lists MB (markov_boundary E T) /\
    evaluates (ipcmb_discover_mb (gtest_ci D p im kind) (fun st => order (results st)) true U T st) (Ok (PC, st2)) /\ lists PC (parent_or_child E T).
Proof.
  intros D p im kind order U E T HW HC HO Ho HU HT HD Ht. assert (HUi : incl U (seq 0 (ncols D))) by (intros c Hc; apply in_seq; specialize (HU c Hc); lia).
  destruct (started D p im kind HW HC HO) as (st & E0 & Hs & Hr0).
  pose proof (gtest_decides D p im kind HW HC HO U E HUi Ht) as Hdec. assert (Hit : iterates (fun st : state => order (results st))) by (intros s l; apply Ho).
  destruct (C28_ipcmb_exact_boundary (gtest_ci D p im kind) (ok_state D p im kind) (fun st => order (results st)) U E T st HD Hdec Hit HT Hs) as (MB & st1 & E1 & H1).
  destruct (C28_ipcmb_exact_parents_children (gtest_ci D p im kind) (ok_state D p im kind) (fun st => order (results st)) U E T st HD Hdec Hit HT Hs) as (PC & st2 & E2 & H2).
  exists st, MB, PC, st1, st2. auto.
Qed.
Print Assumptions C53_exact_boundary_from_data.

(** ** IAMB with the conditional mutual information in the data as its heuristic *)
Section Iamb.
  Variables (D : dataset) (p : params) (im : impl) (kind : dof_kind).
  Hypothesis HW : wf_for D im.
  Hypothesis HC : compatible im kind.
  Hypothesis HO : order_ok p.
  Let V := seq 0 (ncols D).
  Lemma cmi_answers {St} (st : St) x y Zl : sensible_question V x y Zl -> cmi_heuristic D st x y Zl = (Ok (data_cmi D x y Zl), st).
  Proof.
    intros Hq. unfold cmi_heuristic. destruct (sensible_wf D x y Zl Hq) as (H1 & H2). rewrite (C17_dataset_cmi D (proj1 (proj2 HW)) x y Zl H1 H2). reflexivity.
  Qed.
  Lemma cmi_total {St} (Inv : St -> Prop) : forall st x y Zl, Inv st -> sensible_question V x y Zl -> exists s st', cmi_heuristic D st x y Zl = (Ok s, st') /\ Inv st'.
  Proof. intros st x y Zl Hi Hq. rewrite (cmi_answers st x y Zl Hq). eauto. Qed.
  Lemma ideal_iamb kind0 (order : list result -> list nat -> list nat) U T : (kind = UnadjustedDoF <-> kind0 = UnadjustedDoF) -> any_order order -> NoDup U -> incl U V -> In T V ->
    exists st MB st', start D im kind None None no_files = Ok st /\
      (forall f, S (length U) <= f -> iamb_discover_mb (ideal_ci D p kind0) order real_gt (cmi_heuristic D) U T [] f = Ok (MB, results st')) /\
      (forall f, S (length U) <= f -> iamb_discover_mb (gtest_ci D p im kind) (fun st => order (results st)) real_gt (cmi_heuristic D) U T st f = Ok (MB, st')) /\
      ok_state D p im kind st' /\ StronglySorted lt MB /\ (forall x, In x MB -> In x U /\ x <> T).
  Proof.
    intros Hk Ho HN HU HT. destruct (started D p im kind HW HC HO) as (st & E & Hs & Hr). exists st.
    assert (Git : iterates (fun st : state => order (results st))) by (intros s l; apply Ho).
    destruct (iamb_total (gtest_ci D p im kind) (fun st => order (results st)) real_gt (cmi_heuristic D) V (ok_state D p im kind) U T st (gtest_sensibly D p im kind HW HC HO) (cmi_total _) Git HN HU HT Hs) as (MB & st' & E2 & Hs' & HM & Hin).
    destruct (iamb_total (ideal_ci D p kind0) order real_gt (cmi_heuristic D) V (fun _ => True) U T [] (ideal_sensibly D p kind0) (cmi_total _) Ho HN HU HT Logic.I) as (MB0 & rs & E1 & _).
    exists MB, st'. split; [exact E|]. split; [|split; [exact E2|]; split; [exact Hs'|]; split; [exact HM|]; intros x Hx; destruct (Hin x Hx) as (H1 & H2 & _); auto]. intros f Hf.
    destruct (sim_iamb (ideal_ci D p kind0) (gtest_ci D p im kind) order (fun st => order (results st)) real_gt (cmi_heuristic D) (cmi_heuristic D) (fun rs st => ok_state D p im kind st /\ results st = rs)) with (U := U) (T := T) (fuel := f) (a := @nil result) (b := st) (MB := MB0) (a' := rs) as (b' & E3 & (_ & Hrel)).
    - intros; eapply ideal_step; eassumption.
    - intros rs0 s l (_ & ->). reflexivity.
    - intros rs0 s x y Zl v rs1 Hrel Eh. unfold cmi_heuristic in *. injection Eh as E4 <-. exists s. rewrite E4. auto.
    - split; [exact Hs|exact Hr].
    - apply E1; exact Hf.
    - rewrite (E2 f Hf) in E3. injection E3 as -> ->. rewrite Hrel. apply E1; exact Hf.
  Qed.
  Lemma guarded_run_iamb order U T st MB st' : evaluates (iamb_discover_mb (guarded_ci D p im kind) (fun st => order (results st)) real_gt (cmi_heuristic D) U T st) (Ok (MB, st')) ->
    evaluates (iamb_discover_mb (gtest_ci D p im kind) (fun st => order (results st)) real_gt (cmi_heuristic D) U T st) (Ok (MB, st')).
  Proof.
    intros (_ & n & En). split; [discriminate|]. exists n. intros f Hf.
    destruct (sim_iamb (guarded_ci D p im kind) (gtest_ci D p im kind) (fun st => order (results st)) (fun st => order (results st)) real_gt (cmi_heuristic D) (cmi_heuristic D) eq) with (U := U) (T := T) (fuel := f) (a := st) (b := st) (MB := MB) (a' := st') as (b' & E3 & Eb).
    - intros a b x y Zl r a' <- Eg Hrr. exists a'. split; [|reflexivity]. apply guarded_same; assumption.
    - intros a b l <-. reflexivity.
    - intros a b x y Zl r a' <- Eg. exists a'. auto.
    - reflexivity.
    - apply En, Hf.
    - subst b'. exact E3.
  Qed.
End Iamb.

(** IAMB: it completes, the results are right G-tests of the target, and they explain the returned boundary:
    a variable is returned exactly if some test found it dependent on the target and no later test found it
    independent. *)
Theorem C53_iamb_from_data : forall D p im kind order U T,
  wf_for D im -> compatible im kind -> order_ok p -> any_order order -> NoDup U -> (forall c, In c U -> c < ncols D) -> T < ncols D ->
  exists st MB st', start D im kind None None no_files = Ok st /\
    evaluates (iamb_discover_mb (gtest_ci D p im kind) (fun st => order (results st)) real_gt (cmi_heuristic D) U T st) (Ok (MB, st')) /\
    StronglySorted lt MB /\ right_results D p kind (results st') /\ (forall r, In r (results st') -> r_X r = T /\ In (r_Y r) U /\ r_Y r <> T) /\
    forall x, In x MB <-> exists before r after, results st' = before ++ r :: after /\ r_Y r = x /\ r_independent r = Some false /\
      forall r', In r' after -> r_Y r' = x -> r_independent r' <> Some true.
Proof.
  intros D p im kind order U T HW HC HO Ho HN HU HT. assert (HUi : incl U (seq 0 (ncols D))) by (intros c Hc; apply in_seq; specialize (HU c Hc); lia).
  assert (HTi : In T (seq 0 (ncols D))) by (apply in_seq; lia).
  destruct (ideal_iamb D p im kind HW HC HO kind order U T (iff_refl _) Ho HN HUi HTi) as (st & MB & st' & E & _ & E2 & (_ & _ & Hr) & HS & _).
  destruct (started D p im kind HW HC HO) as (st0 & E0 & Hs & Hr0). rewrite E in E0. injection E0 as <-.
  pose proof (guarded_sensibly D p im kind HW HC HO) as Gs. pose proof (guarded_keeps D p im kind HW HC) as Gk. assert (Git : iterates (fun st : state => order (results st))) by (intros s l; apply Ho).
  assert (G0 : gtest_log st = []) by (unfold gtest_log; rewrite Hr0; reflexivity).
  destruct (C52_iamb_explained (guarded_ci D p im kind) (cmi_heuristic D) real_gt gtest_log (ok_state D p im kind) (fun st => order (results st)) U (seq 0 (ncols D)) T st Gs Gk (cmi_total D im HW _)) as (MB1 & st1 & Ev & Hx & Hall);
    [intros s x y Zl v s' Eh; unfold cmi_heuristic in Eh; injection Eh as _ <-; reflexivity|exact Git|exact HN|exact HUi|exact HTi|exact Hs|exact G0|].
  pose proof (guarded_run_iamb D p im kind order U T st MB1 st1 Ev) as Ev1. 
  assert (Ev2 : evaluates (iamb_discover_mb (gtest_ci D p im kind) (fun st => order (results st)) real_gt (cmi_heuristic D) U T st) (Ok (MB, st'))) by (eapply evaluates_from; exact E2).
  pose proof (evaluates_unique _ _ _ Ev1 Ev2) as Eu. injection Eu as -> ->. exists st, MB, st'. split; [exact E|]. split; [exact Ev2|]. split; [exact HS|]. split; [exact Hr|].
  assert (Hall' : forall r, In r (results st') -> r_X r = T /\ In (r_Y r) U /\ r_Y r <> T).
  { intros r Hin. eapply Hall. unfold gtest_log. apply in_map_iff. exists r. split; [reflexivity|exact Hin]. }
  split; [exact Hall'|]. intros x. rewrite Hx. unfold gtest_log. split.
  - intros (bf & Zl & af & Eq & Hno). apply map_eq_app in Eq. destruct Eq as (l1 & l2 & Eq & <- & E3). destruct l2 as [|r l2]; [discriminate|]. cbn [map] in E3. pose proof (f_equal (@tl _) E3) as E9. pose proof (f_equal (hd (as_answer r)) E3) as E4. cbn [hd tl] in E9, E4. subst af. clear E3.
    exists l1, r, l2. split; [exact Eq|]. unfold as_answer in E4. injection E4 as E5 E6 E7 E8. split; [exact E6|]. split; [destruct (r_independent r); congruence|].
    intros r' Hin Hy Hi. apply (Hno (r_Z r')). apply in_map_iff. exists r'. split; [|exact Hin]. unfold as_answer. rewrite Hi, Hy. destruct (Hall' r') as (-> & _); [rewrite Eq; apply in_or_app; right; right; exact Hin|reflexivity].
  - intros (bf & r & af & Eq & Hy & Hi & Hno). exists (map as_answer bf), (r_Z r), (map as_answer af). rewrite Eq, map_app. cbn [map]. split.
    + f_equal. f_equal. unfold as_answer. rewrite Hi, Hy. destruct (Hall' r) as (-> & _); [rewrite Eq; apply in_or_app; right; left; reflexivity|reflexivity].
    + intros Z' Hin. apply in_map_iff in Hin. destruct Hin as (r' & E3 & Hin). unfold as_answer in E3. injection E3 as E5 E6 E7 E8. apply (Hno r' Hin E6). destruct (r_independent r'); congruence.
Qed.
Print Assumptions C53_iamb_from_data.
Theorem C53_iamb_implementations_agree : forall D p im1 im2 kind1 kind2 order U T,
  wf_for D im1 -> wf_for D im2 -> compatible im1 kind1 -> compatible im2 kind2 -> (kind1 = UnadjustedDoF <-> kind2 = UnadjustedDoF) ->
  order_ok p -> any_order order -> NoDup U -> (forall c, In c U -> c < ncols D) -> T < ncols D ->
  exists st1 st2 MB st1' st2', start D im1 kind1 None None no_files = Ok st1 /\ start D im2 kind2 None None no_files = Ok st2 /\
    evaluates (iamb_discover_mb (gtest_ci D p im1 kind1) (fun st => order (results st)) real_gt (cmi_heuristic D) U T st1) (Ok (MB, st1')) /\
    evaluates (iamb_discover_mb (gtest_ci D p im2 kind2) (fun st => order (results st)) real_gt (cmi_heuristic D) U T st2) (Ok (MB, st2')) /\
    results st1' = results st2'.
Proof.
  intros D p im1 im2 kind1 kind2 order U T W1 W2 K1 K2 Hk HO Ho HN HU HT. assert (HUi : incl U (seq 0 (ncols D))) by (intros c Hc; apply in_seq; specialize (HU c Hc); lia).
  assert (HTi : In T (seq 0 (ncols D))) by (apply in_seq; lia).
  destruct (ideal_iamb D p im1 kind1 W1 K1 HO kind1 order U T (iff_refl _) Ho HN HUi HTi) as (st1 & MB1 & st1' & E1 & I1 & F1 & _).
  destruct (ideal_iamb D p im2 kind2 W2 K2 HO kind1 order U T (iff_sym Hk) Ho HN HUi HTi) as (st2 & MB2 & st2' & E2 & I2 & F2 & _).
  specialize (I1 (S (length U)) (le_n _)). rewrite (I2 (S (length U)) (le_n _)) in I1. injection I1 as EM Er. subst MB2.
  exists st1, st2, MB1, st1', st2'. repeat split; auto; [discriminate|exists (S (length U)); exact F1|discriminate|exists (S (length U)); exact F2].
Qed.
(** If the tests tell what is d-separated in a DAG over the variables and some threshold on the conditional
    mutual information does as well, the result is the target's Markov boundary in that DAG. *)
Theorem C53_iamb_exact_from_data : forall D p im kind order U E T theta,
  wf_for D im -> compatible im kind -> order_ok p -> any_order order -> (forall c, In c U -> c < ncols D) -> In T U ->
  dag_over U E -> tests_tell D p kind U E -> (forall x y Zl, sensible_question U x y Zl -> (theta < data_cmi D x y Zl)%R <-> ~ pearl E x Zl y) ->
  exists st MB st', start D im kind None None no_files = Ok st /\
    evaluates (iamb_discover_mb (gtest_ci D p im kind) (fun st => order (results st)) real_gt (cmi_heuristic D) U T st) (Ok (MB, st')) /\ lists MB (markov_boundary E T).
Proof.
  intros D p im kind order U E T theta HW HC HO Ho HU HT HD Ht Hth. assert (HUi : incl U (seq 0 (ncols D))) by (intros c Hc; apply in_seq; specialize (HU c Hc); lia).
  destruct (started D p im kind HW HC HO) as (st & E0 & Hs & Hr0).
  pose proof (gtest_decides D p im kind HW HC HO U E HUi Ht) as Hdec. assert (Hit : iterates (fun st : state => order (results st))) by (intros s l; apply Ho).
  destruct (C31_iamb_exact_boundary (gtest_ci D p im kind) (cmi_heuristic D) real_gt (ok_state D p im kind) (fun st => order (results st)) U E (pearl E) T st) as (MB & st' & H1 & H2); auto; [|exists st, MB, st'; auto].
  exists (fun s => (theta < s)%R). split.
  - intros a b Ha Hb. unfold real_gt. destruct (Rlt_dec b a), (Rlt_dec a b); split; auto; exfalso; lra.
  - intros s x y Zl Hi Hq. exists (data_cmi D x y Zl), s. split; [|split; [exact Hi|apply Hth, Hq]]. apply (cmi_answers D im HW). destruct Hq as (H1 & H2 & H3 & H4 & H5 & H6 & H7). repeat split; auto. intros z Hz. apply HUi, H7, Hz.
Qed.
Print Assumptions C53_iamb_exact_from_data.

(** ** A concrete case: the third column is the conjunction of the first two, all combinations once *)
Definition D_and : dataset := {| rows := [[0; 0; 0]; [0; 1; 0]; [1; 0; 0]; [1; 1; 1]]%Z; ncols := 3; colvals := fun c => if c <? 3 then Some [0; 1]%Z else None; threshold := 2 |}.
Definition p_and : params := {| chi2_cdf := fun g _ => if Rlt_dec 0 g then 1%R else 0%R; significance := (95/100)%R; criterion := Some (fun _ => true); set_order := nodup Nat.eq_dec |}.
Definition E_and (u v : nat) : Prop := u < 2 /\ v = 2.
Lemma D_and_wf im : wf_for D_and im.
Proof.
  split; [|split; [discriminate|]].
  - constructor.
    + cbn. repeat constructor.
    + intros c Hc. cbn in Hc. assert (Hcase : c = 0 \/ c = 1 \/ c = 2) by lia.
      destruct Hcase as [-> | [-> | ->]]; cbn; eexists; (split; [reflexivity|]); (split; [repeat constructor; cbn; intuition discriminate|]); (split; [discriminate|]);
        intros row x Hrow Hx; cbn in Hrow; repeat (destruct Hrow as [<-|Hrow]; [cbn in Hx; injection Hx as <-; cbn; tauto|]); contradiction.
  - destruct im; try exact Logic.I. split; [|unfold threshold_ok; cbn; lia]. intros c vs Hc E. cbn in Hc. unfold D_and, colvals in E. destruct (c <? 3); [|discriminate]. injection E as <-. cbn. intuition discriminate.
Qed.
Lemma p_and_ok : order_ok p_and.
Proof. intros l. split; [apply NoDup_nodup|]. intros x. apply nodup_In. Qed.
Lemma E_and_dag : dag_over [0; 1; 2] E_and.
Proof.
  split; [repeat constructor; cbn; intuition discriminate|]. split; [|split].
  - intros u Hu. assert (H : forall u v, clos_trans nat E_and u v -> u < 2 /\ v = 2) by (intros a b H; induction H as [a b H|a b c H1 IH1 H2 IH2]; [exact H|lia]). apply H in Hu. lia.
  - intros u v (H1 & ->). cbn. lia.
  - intros u v. unfold E_and. lia.
Qed.
Definition n_and (ev : list BinNums.Z -> bool) : nat := length (filter ev (rows D_and)).
Lemma pr_and ev : pr (data_space D_and) ev = (INR (n_and ev) / 4)%R.
Proof.
  unfold pr, n_and. cbn [data_space uniform outcomes weight]. induction (filter ev (rows D_and)) as [|a l IH]; [cbn; lra|].
  cbn [map Sum]. rewrite IH. replace (length (a :: l)) with (S (length l)) by reflexivity. rewrite S_INR. replace (INR (length (rows D_and))) with 4%R by (cbn; lra). lra.
Qed.
Lemma and_prob : is_probability (data_space D_and).
Proof. split; [intros a _; cbn [data_space uniform weight]; cbn; lra|cbn; lra]. Qed.
Definition and_balance (x y : nat) (Zl : list nat) (vx vy vz : list BinNums.Z) : Prop :=
  n_and (fun a => eqv (proj [x] a) vx && eqv (proj [y] a) vy && eqv (proj Zl a) vz)%bool * n_and (fun a => eqv (proj Zl a) vz) =
  n_and (fun a => eqv (proj [x] a) vx && eqv (proj Zl a) vz)%bool * n_and (fun a => eqv (proj [y] a) vy && eqv (proj Zl a) vz)%bool.
Lemma and_independent x y Zl : cond_independent (data_space D_and) (proj [x]) (proj [y]) (proj Zl) <-> forall vx vy vz, and_balance x y Zl vx vy vz.
Proof.
  unfold cond_independent, pr3, pr2, pr1. split; intros H vx vy vz; specialize (H vx vy vz).
  - rewrite !pr_and in H. apply INR_eq. rewrite !mult_INR. lra.
  - rewrite !pr_and. unfold and_balance in H. apply (f_equal INR) in H. rewrite !mult_INR in H. lra.
Qed.
Lemma and_0_1 vx vy vz : and_balance 0 1 [] vx vy vz.
Proof.
  unfold and_balance, n_and. cbn [D_and rows filter proj map nth].
  assert (Hx : eqv [0]%Z vx = false \/ eqv [1]%Z vx = false) by (unfold eqv; destruct (list_eq_dec Z.eq_dec [0]%Z vx) as [<-|]; [right|left; reflexivity]; destruct (list_eq_dec Z.eq_dec [1]%Z [0]%Z); [discriminate|reflexivity]).
  assert (Hy : eqv [0]%Z vy = false \/ eqv [1]%Z vy = false) by (unfold eqv; destruct (list_eq_dec Z.eq_dec [0]%Z vy) as [<-|]; [right|left; reflexivity]; destruct (list_eq_dec Z.eq_dec [1]%Z [0]%Z); [discriminate|reflexivity]).
  destruct (eqv [0]%Z vx), (eqv [1]%Z vx), (eqv [0]%Z vy), (eqv [1]%Z vy), (eqv [] vz); cbn; try reflexivity; destruct Hx, Hy; discriminate.
Qed.
Lemma and_balance_sym x y Zl : (forall vx vy vz, and_balance x y Zl vx vy vz) -> forall vx vy vz, and_balance y x Zl vx vy vz.
Proof.
  intros H vx vy vz. specialize (H vy vx vz). unfold and_balance in *. rewrite Nat.mul_comm with (n := n_and (fun a => eqv (proj [y] a) vx && eqv (proj Zl a) vz)%bool). rewrite <- H. f_equal. unfold n_and. f_equal.
  apply filter_ext. intros a. destruct (eqv (proj [x] a) vy), (eqv (proj [y] a) vx); reflexivity.
Qed.
Lemma and_adjacent x y Zl : adjacent E_and x y -> x <> y -> ~ pearl E_and x Zl y.
Proof.
  intros Ha Hn Hd. destruct (Hd [x; y]) as (p1 & a & b & c & p2 & E & _).
  - split; [|repeat constructor; cbn; intuition]. eapply path_step; [exact Ha|]. apply path_one.
  - apply (f_equal (@length nat)) in E. rewrite app_length in E. cbn in E. lia.
Qed.
Lemma and_opened x y : x < 2 -> y < 2 -> x <> y -> ~ pearl E_and x [2] y.
Proof.
  intros Hx Hy Hn Hd. destruct (Hd [x; 2; y]) as (p1 & a & b & c & p2 & E & H).
  - split; [|repeat constructor; cbn; lia]. eapply path_step; [left; split; [exact Hx|reflexivity]|]. eapply path_step; [right; split; [exact Hy|reflexivity]|]. apply path_one.
  - destruct p1 as [|q p1]; [|exfalso; apply (f_equal (@length nat)) in E; cbn in E; rewrite app_length in E; cbn in E; lia]. injection E as <- <- <- _.
    destruct H as [(_ & H)|(H & _)]; [apply (H 2); [apply rt_refl|left; reflexivity]|apply H; split; split; auto].
Qed.
Lemma and_closed x y : x < 2 -> y < 2 -> x <> y -> pearl E_and x [] y.
Proof.
  intros Hx Hy Hn p (Hp & HN). inversion Hp as [a|a z q b Ha Hq]; subst; [congruence|]. assert (z = 2) by (destruct Ha as [(_ & H)|(_ & H)]; lia). subst z.
  inversion Hq as [a|a z q' b Ha' Hq']; subst; [lia|]. assert (Hz : z < 2) by (destruct Ha' as [(H & _)|(H & _)]; lia).
  assert (Hh : exists q2, q' = z :: q2) by (inversion Hq'; eauto). destruct Hh as (q2 & ->). exists [], x, 2, z, q2. split; [reflexivity|]. left. split; [split; split; auto|]. intros d _ [].
Qed.
(** a question about the three variables *)
Lemma and_question x y Zl : sensible_question [0; 1; 2] x y Zl -> x <> y /\ x < 3 /\ y < 3 /\ (Zl = [] \/ Zl = [3 - x - y]).
Proof.
  intros (H1 & H2 & H3 & H4 & H5 & H6 & H7). assert (Hr : forall c, In c [0; 1; 2] -> c < 3) by (cbn; lia). split; [exact H1|]. split; [auto|]. split; [auto|].
  destruct Zl as [|z [|z' Zl]]; [auto| |]; right.
  - assert (z < 3) by (apply Hr, H7; left; reflexivity). assert (z <> x) by (intros ->; apply H2; left; reflexivity). assert (z <> y) by (intros ->; apply H3; left; reflexivity).
    apply Hr in H5, H6. f_equal. lia.
  - exfalso. assert (z < 3) by (apply Hr, H7; left; reflexivity). assert (z <> x) by (intros ->; apply H2; left; reflexivity). assert (z <> y) by (intros ->; apply H3; left; reflexivity).
    assert (z' < 3) by (apply Hr, H7; right; left; reflexivity). assert (z' <> x) by (intros ->; apply H2; right; left; reflexivity). assert (z' <> y) by (intros ->; apply H3; right; left; reflexivity).
    assert (z <> z') by (inversion H4; intros ->; cbn in *; tauto). apply Hr in H5, H6. lia.
Qed.
Lemma and_dependent x y Zl vx vy vz : ~ and_balance x y Zl vx vy vz -> (0 < data_cmi D_and x y Zl)%R.
Proof.
  intros H. unfold data_cmi. destruct (Rle_lt_or_eq_dec 0 _ (cmi_nonneg (data_space D_and) and_prob (proj [x]) (proj [y]) (proj Zl))) as [Hlt|He]; [exact Hlt|].
  exfalso. apply H. apply and_independent. apply (cmi_zero_iff _ and_prob _ _ _). symmetry. exact He.
Qed.
Lemma and_cmi x y Zl : sensible_question [0; 1; 2] x y Zl -> (0 < data_cmi D_and x y Zl)%R <-> ~ pearl E_and x Zl y.
Proof.
  intros Hq. apply and_question in Hq. destruct Hq as (Hn & Hx & Hy & Hz).
  assert (Hind : x < 2 -> y < 2 -> Zl = [] -> data_cmi D_and x y [] = 0%R).
  { intros Hx2 Hy2 _. unfold data_cmi. apply (cmi_zero_iff _ and_prob _ _ _). apply and_independent. assert (Hc : (x = 0 /\ y = 1) \/ (x = 1 /\ y = 0)) by lia.
    destruct Hc as [(-> & ->)|(-> & ->)]; [exact and_0_1|apply and_balance_sym; exact and_0_1]. }
  destruct (Nat.eq_dec x 2) as [->|Nx]; [|destruct (Nat.eq_dec y 2) as [->|Ny]].
  - assert (Hy2 : y < 2) by lia. split; [intros _; apply and_adjacent; [right; split; auto|exact Hn]|intros _].
    destruct Hz as [-> | ->]; [|replace (3 - 2 - y) with (1 - y) by lia]; (assert (Hc : y = 0 \/ y = 1) by lia); destruct Hc as [-> | ->].
    all: [> apply and_dependent with (vx := [1]%Z) (vy := [0]%Z) (vz := []) | apply and_dependent with (vx := [1]%Z) (vy := [0]%Z) (vz := [])
         | apply and_dependent with (vx := [1]%Z) (vy := [0]%Z) (vz := [1]%Z) | apply and_dependent with (vx := [1]%Z) (vy := [0]%Z) (vz := [1]%Z) ]; vm_compute; discriminate.
  - assert (Hx2 : x < 2) by lia. split; [intros _; apply and_adjacent; [left; split; auto|exact Hn]|intros _].
    destruct Hz as [-> | ->]; [|replace (3 - x - 2) with (1 - x) by lia]; (assert (Hc : x = 0 \/ x = 1) by lia); destruct Hc as [-> | ->].
    all: [> apply and_dependent with (vx := [0]%Z) (vy := [1]%Z) (vz := []) | apply and_dependent with (vx := [0]%Z) (vy := [1]%Z) (vz := [])
         | apply and_dependent with (vx := [0]%Z) (vy := [1]%Z) (vz := [1]%Z) | apply and_dependent with (vx := [0]%Z) (vy := [1]%Z) (vz := [1]%Z) ]; vm_compute; discriminate.
  - assert (Hx2 : x < 2) by lia. assert (Hy2 : y < 2) by lia. destruct Hz as [-> | ->].
    + rewrite Hind by auto. split; [lra|]. intros H. exfalso. apply H. apply and_closed; assumption.
    + replace (3 - x - y) with 2 by lia. split; [intros _; apply and_opened; assumption|intros _]. assert (Hc : (x = 0 /\ y = 1) \/ (x = 1 /\ y = 0)) by lia.
      destruct Hc as [(-> & ->)|(-> & ->)]; apply and_dependent with (vx := [0]%Z) (vy := [0]%Z) (vz := [0]%Z); vm_compute; discriminate.
Qed.
Lemma and_tell kind : tests_tell D_and p_and kind [0; 1; 2] E_and.
Proof.
  intros x y Zl Hq. split; [reflexivity|]. pose proof (and_cmi x y Zl Hq) as H. unfold G_statistic. fold (data_cmi D_and x y Zl). cbn [chi2_cdf p_and significance].
  replace (2 * INR (length (rows D_and)))%R with 8%R by (cbn; lra). destruct (Rlt_dec 0 (8 * data_cmi D_and x y Zl)) as [Hl|Hl]; split; intros H1; try lra.
  - exfalso. apply H in H1; [exact H1|]. lra.
  - destruct (Classical_Prop.classic (pearl E_and x Zl y)) as [H2|H2]; [exact H2|]. apply H in H2. exfalso. lra.
Qed.
(** the hypotheses of all theorems above are met, and the boundary of the first column consists of the other two *)
Example C53_nonvacuous : (forall im, wf_for D_and im) /\ order_ok p_and /\ any_order (fun rs l => if Nat.even (length rs) then l else rev l) /\ dag_over [0; 1; 2] E_and /\
  (forall kind, tests_tell D_and p_and kind [0; 1; 2] E_and) /\ (forall x y Zl, sensible_question [0; 1; 2] x y Zl -> (0 < data_cmi D_and x y Zl)%R <-> ~ pearl E_and x Zl y) /\
  lists [1; 2] (markov_boundary E_and 0) /\ lists [2] (parent_or_child E_and 0).
Proof.
  split; [exact D_and_wf|]. split; [exact p_and_ok|]. split; [intros rs l; destruct (Nat.even (length rs)); [apply Permutation_refl|apply Permutation_rev]|].
  split; [exact E_and_dag|]. split; [exact and_tell|]. split; [exact and_cmi|]. split; split; try (repeat constructor; lia).
  - intros x. unfold markov_boundary, parent_or_child, spouse, adjacent, E_and. cbn [In]. split.
    + intros [<-|[<-|[]]]; [right; split; [lia|exists 2; lia]|left; lia].
    + intros [H|(H1 & c & H2 & H3)]; lia.
  - intros x. unfold parent_or_child, adjacent, E_and. cbn [In]. lia.
Qed.
