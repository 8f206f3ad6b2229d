From Coq Require Import Reals.
From Verif Require Import Base AD_Model AD_Query_Model AD_Spec AD_Proofs AD_More_Proofs Key_Model PMF_Model MB_Model MB_Cache_Proofs GTest_Model GTest_Spec
  GTest_Tables_Proofs GTest_DoF_Proofs GTest_Cache_Proofs GTest_Impl_Proofs GTest_AD_Proofs GTest_Proofs GTest_Properties Shared_Model Shared_Spec Shared_Proofs ADFile_Model ADFile_Spec.
Open Scope Z_scope.

(** the file holds a tree of the table [D] *)
Definition tree_for (D : dataset) (c : tree_cell) : Prop :=
  exists th, tc_data c = with_threshold D th /\ th <= Z.of_nat (length (rows D)) /\ ok_root (tc_data c) (tc_dyn c) (tc_root c).
Definition file_ok (D : dataset) (f : file tree_cell) : Prop := match f with Saved c => tree_for D c | _ => True end.

Lemma wf_threshold D th dyn : table_ok D -> th <= Z.of_nat (length (rows D)) -> wf_for (with_threshold D th) (WithADTree dyn).
Proof. intros (H1 & H2 & H3) H. split; [destruct H1 as [A B]; constructor; [exact A|exact B]|]. split; [exact H2|]. split; [exact H3|exact H]. Qed.

Lemma tests_on_tree_eq Dt D p dyn kind : (kind = UnadjustedDoF -> colvals D = colvals Dt) -> forall tests st,
  tests_on_tree Dt D p dyn kind st tests = run_tests Dt p (WithADTree dyn) kind st tests.
Proof.
  intros H. induction tests as [|[[X Y] Z] tests IH]; intros st; cbn [tests_on_tree run_tests]; [reflexivity|].
  unfold conditionally_independent.
  replace (run_on_tree Dt D p dyn kind st X Y Z) with (run_test Dt p (WithADTree dyn) kind st X Y Z).
  - destruct (run_test Dt p (WithADTree dyn) kind st X Y Z) as [[r st1]|e]; [|reflexivity]. cbn [bind]. rewrite IH. reflexivity.
  - unfold run_on_tree, run_test. destruct (of_option AttributeError (ad_tree st)) as [t|e]; [|reflexivity]. cbn [bind].
    destruct (ad_tables Dt dyn kind (dof_cache st) t X Y Z) as [[[[[[a b] c] d] e] f]|e]; [|reflexivity]. cbn [bind].
    replace (calculate_DoF D kind e X Y Z b c d) with (calculate_DoF Dt kind e X Y Z b c d); [reflexivity|].
    destruct kind; [|reflexivity|reflexivity]. unfold calculate_DoF, unadjusted_DoF, value_count. rewrite H by reflexivity. reflexivity.
Qed.

Lemma pickled_ok D c : tree_for D c -> tree_for D (pickled c).
Proof.
  intros (th & E & Hth & Hok). exists th. cbn [pickled tc_data tc_dyn tc_root]. split; [exact E|]. split; [exact Hth|].
  unfold pickle_roundtrip. destruct (tc_dyn c) eqn:Ed; [exact Hok|].
  destruct Hok as (H1 & H2 & H3). destruct (pickle_value (tc_root c)) as (B1 & B2 & _ & _). split; [apply pickle_ok; exact H1|]. split; congruence.
Qed.

Lemma set_file_same fs i f : set_file fs i f i = f.
Proof. unfold set_file. rewrite Nat.eqb_refl. reflexivity. Qed.
Lemma set_file_other fs i f j : j <> i -> set_file fs i f j = fs j.
Proof. intros H. unfold set_file. destruct (Nat.eqb_spec j i); [contradiction|reflexivity]. Qed.

(** what a partial save leaves *)
Lemma writes_at n path c fs k : do_writes n (save_steps path c) fs k =
  (if match path with Some i => (k =? i)%nat | None => false end then match n with O => fs k | 1%nat => Torn | _ => Saved (pickled c) end else fs k).
Proof.
  unfold do_writes, save_steps. destruct path as [i|]; [|destruct n; reflexivity].
  destruct (Nat.eqb_spec k i) as [->|Hne].
  - destruct n as [|[|n]]; cbn [firstn fold_left]; rewrite ?firstn_nil; cbn [fold_left]; [reflexivity|apply set_file_same|apply set_file_same].
  - destruct n as [|[|n]]; cbn [firstn fold_left]; rewrite ?firstn_nil; cbn [fold_left]; rewrite ?set_file_other by exact Hne; reflexivity.
Qed.
Lemma save_length path c : length (save_steps path c) = match path with Some _ => 2%nat | None => O end.
Proof. destruct path; reflexivity. Qed.

Lemma writes_ok D n path c fs : tree_for D c -> (forall k, file_ok D (fs k)) -> forall k, file_ok D (do_writes n (save_steps path c) fs k).
Proof.
  intros Hc Hf k. rewrite writes_at. destruct path as [i|]; [|apply Hf]. destruct (k =? i)%nat; [|apply Hf].
  destruct n as [|[|n]]; [apply Hf|exact Logic.I|]. apply pickled_ok, Hc.
Qed.

(** the tree in use answers for its own table; the process's own declared values matter only for
    the unadjusted degrees of freedom *)
Lemma use_tree_ok D fs n p c : table_ok D -> tree_for D c -> order_ok (pr_params p) -> Forall (wf_test D) (pr_tests p) ->
  (pr_kind p = UnadjustedDoF -> colvals (pr_data p) = colvals D) ->
  exists os c', use_tree fs n p c = (do_writes n (save_steps (pr_save p) c') fs, Answers os) /\ tree_for D c' /\ tc_dyn c' = tc_dyn c /\ tc_data c' = tc_data c /\
    Forall2 (expected_outcome D (pr_params p) (pr_kind p)) (pr_tests p) os.
Proof.
  intros HD (th & E & Hth & Hok) Ho Ht Hk. unfold use_tree.
  assert (W : wf_for (tc_data c) (WithADTree (tc_dyn c))) by (rewrite E; apply wf_threshold; assumption).
  destruct (start_on_tree (tc_data c) (tc_dyn c) (pr_kind p) (tc_root c) W Hok) as (st & t' & Es & Et & Hok' & Hn & Hc & Hr & Hx).
  rewrite Es. rewrite tests_on_tree_eq by (intros K; rewrite E; exact (Hk K)).
  assert (Ht' : Forall (wf_test (tc_data c)) (pr_tests p)) by (rewrite E; exact Ht).
  destruct W as (W1 & W2 & W3). pose proof (conj W1 (conj W2 W3) : wf_for (tc_data c) (WithADTree (tc_dyn c))) as W.
  destruct (run_tests_ok (tc_data c) W1 W2 (pr_params p) Ho (WithADTree (tc_dyn c)) (pr_kind p) (pr_tests p) W Logic.I Ht' st) as (os & st' & rs & Er & Hi & H2 & _).
  { split; [exact Hn|]. split; [rewrite Hc; intros X Y Z _ Hn'; exfalso; apply Hn'; reflexivity|]. exists t'. split; assumption. }
  rewrite Er. destruct Hi as (_ & _ & t2 & E2 & Hok2).
  exists os. eexists. split; [reflexivity|]. split; [|split; [reflexivity|split; [reflexivity|]]].
  - exists th. cbn [tc_data tc_dyn tc_root]. split; [exact E|]. split; [exact Hth|]. unfold tree_of. rewrite E2. exact Hok2.
  - rewrite E in H2. exact H2.
Qed.

(** one process on the table [D], all the files being about [D] *)
Lemma run_process_ok D fs p : table_ok D -> process_on D p -> (forall k, file_ok D (fs k)) ->
  exists fs' r, run_process fs p = (fs', r) /\ (forall k, file_ok D (fs' k)) /\
    (answers_for D p r \/ (r = KilledBuilding /\ pr_save p <> None /\ (pr_writes p < 2)%nat) \/ (r = CouldNotStart PickleErr /\ opened fs p = Torn /\ fs' = fs)) /\
    (forall k, fs' k = Torn -> fs k = Torn \/ may_tear k p) /\
    (opened fs p <> Torn -> (4 <= pr_writes p)%nat -> answers_for D p r /\ forall k, pr_save p = Some k -> exists c, fs' k = Saved c).
Proof.
  intros HD (E & Ho & Hth & Ht) Hf. unfold run_process. destruct (opened fs p) as [| |c] eqn:Eop.
  - set (D' := with_threshold (pr_data p) (pr_threshold p)).
    assert (W : wf_for D' (WithADTree (pr_dynamic p))) by (subst D'; rewrite E; apply wf_threshold; assumption).
    destruct W as (W1 & W2 & W3 & W4). destruct (build_tree_ok D' W1 (pr_dynamic p) W4) as (t & Et & Hrt). rewrite Et.
    set (c := {| tc_data := D'; tc_dyn := pr_dynamic p; tc_root := t |}).
    assert (Hc : tree_for D c). { exists (pr_threshold p). subst c D'. cbn [tc_data tc_dyn tc_root]. rewrite E in *. auto. }
    rewrite save_length. destruct (Nat.ltb_spec (pr_writes p) (match pr_save p with Some _ => 2%nat | None => 0%nat end)) as [Hlt|Hge].
    + eexists _, _. split; [reflexivity|]. split; [apply writes_ok; assumption|]. destruct (pr_save p) as [i|] eqn:Es; [|lia].
      split; [right; left; split; [reflexivity|]; split; [discriminate|exact Hlt]|]. split; [|intros _ H4; lia].
      intros k. rewrite writes_at. destruct (Nat.eqb_spec k i) as [->|Hne]; [|auto]. destruct (pr_writes p) as [|[|n]] eqn:En; [auto| |discriminate].
      intros _. right. split; [exact Es|]. rewrite En. auto.
    + destruct (use_tree_ok D (do_writes (pr_writes p) (save_steps (pr_save p) c) fs) (pr_writes p - match pr_save p with Some _ => 2%nat | None => 0%nat end) p c HD Hc Ho Ht)
        as (os & c' & Eu & Hc' & _ & _ & H2); [intros _; rewrite E; reflexivity|].
      rewrite Eu. assert (Ha : answers_for D p (Answers os)) by (exists os; split; [reflexivity|exact H2]).
      eexists _, _. split; [reflexivity|]. split; [apply writes_ok; [exact Hc'|apply writes_ok; assumption]|]. split; [left; exact Ha|]. split.
      * intros k. rewrite !writes_at. destruct (pr_save p) as [i|] eqn:Es; [|auto]. destruct (Nat.eqb_spec k i) as [->|Hne]; [|auto].
        destruct (pr_writes p) as [|[|[|[|n]]]] eqn:En; cbn [Nat.sub]; try lia; try discriminate.
        intros _. right. split; [exact Es|]. rewrite En. auto.
      * intros _ H4. split; [exact Ha|]. intros k Ek. rewrite !writes_at, Ek, Nat.eqb_refl.
        destruct (pr_writes p) as [|[|[|[|n]]]] eqn:En; try lia. cbn [Nat.sub]. eauto.
  - eexists _, _. split; [reflexivity|]. split; [exact Hf|]. split; [right; right; auto|]. split; [auto|]. intros H; exfalso; apply H; reflexivity.
  - assert (Hc : tree_for D c). { unfold opened in Eop. destruct (pr_load p) as [i|]; [|discriminate]. specialize (Hf i). rewrite Eop in Hf. exact Hf. }
    destruct (use_tree_ok D fs (pr_writes p) p c HD Hc Ho Ht) as (os & c' & Eu & Hc' & _ & _ & H2); [intros _; rewrite E; reflexivity|].
    rewrite Eu. assert (Ha : answers_for D p (Answers os)) by (exists os; split; [reflexivity|exact H2]).
    eexists _, _. split; [reflexivity|]. split; [apply writes_ok; assumption|]. split; [left; exact Ha|]. split.
    + intros k. rewrite !writes_at. destruct (pr_save p) as [i|] eqn:Es; [|auto]. destruct (Nat.eqb_spec k i) as [->|Hne]; [|auto].
      destruct (pr_writes p) as [|[|n]] eqn:En; [auto| |discriminate]. intros _. right. split; [exact Es|]. rewrite En. auto.
    + intros _ H4. split; [exact Ha|]. intros k Ek. rewrite !writes_at, Ek, Nat.eqb_refl. destruct (pr_writes p) as [|[|n]]; try lia. eauto.
Qed.

Lemma run_processes_app ps1 ps2 : forall fs, run_processes fs (ps1 ++ ps2) =
  let '(rs1, fs1) := run_processes fs ps1 in let '(rs2, fs2) := run_processes fs1 ps2 in (rs1 ++ rs2, fs2).
Proof.
  induction ps1 as [|p ps1 IH]; intros fs; cbn [run_processes app]; [destruct (run_processes fs ps2); reflexivity|].
  destruct (run_process fs p) as [fs1 r]. rewrite IH. destruct (run_processes fs1 ps1) as [rs1 fs2]. destruct (run_processes fs2 ps2); reflexivity.
Qed.
Lemma run_processes_length ps : forall fs, length (fst (run_processes fs ps)) = length ps.
Proof.
  induction ps as [|p ps IH]; intros fs; [reflexivity|]. cbn [run_processes]. destruct (run_process fs p) as [fs1 r].
  specialize (IH fs1). destruct (run_processes fs1 ps). cbn [fst length] in *. congruence.
Qed.

Lemma run_processes_ok D ps : table_ok D -> forall fs, Forall (process_on D) ps -> (forall k, file_ok D (fs k)) ->
  (forall k, file_ok D (snd (run_processes fs ps) k)) /\
  (forall k, snd (run_processes fs ps) k = Torn -> fs k = Torn \/ exists q, In q ps /\ may_tear k q) /\
  forall i p r, nth_error ps i = Some p -> nth_error (fst (run_processes fs ps)) i = Some r ->
    answers_for D p r \/ (r = KilledBuilding /\ pr_save p <> None /\ (pr_writes p < 2)%nat) \/
    (r = CouldNotStart PickleErr /\ exists k, pr_load p = Some k /\ (fs k = Torn \/ exists j q, (j < i)%nat /\ nth_error ps j = Some q /\ may_tear k q)).
Proof.
  intros HD. induction ps as [|p ps IH]; intros fs Hps Hf.
  - cbn. split; [exact Hf|]. split; [auto|]. intros [|i]; discriminate.
  - inversion Hps as [|? ? Hp Hps']; subst. destruct (run_process_ok D fs p HD Hp Hf) as (fs1 & r & E & Hf1 & Hr & Htorn & _).
    cbn [run_processes]. rewrite E. destruct (IH fs1 Hps' Hf1) as (A & B & C). destruct (run_processes fs1 ps) as [rs fs2]. cbn [fst snd] in *.
    split; [exact A|]. split.
    + intros k H. destruct (B k H) as [H1|(q & Hq & Hm)]; [|right; exists q; split; [right; exact Hq|exact Hm]].
      destruct (Htorn k H1) as [H2|H2]; [left; exact H2|right; exists p; split; [left; reflexivity|exact H2]].
    + intros [|i] p' r' Hp' Hr'; cbn [nth_error] in *.
      * injection Hp' as <-. injection Hr' as <-. destruct Hr as [H|[H|(H1 & H2 & H3)]]; [auto|auto|]. right; right. split; [exact H1|].
        unfold opened in H2. destruct (pr_load p) as [k|]; [|discriminate]. exists k. auto.
      * destruct (C i p' r' Hp' Hr') as [H|[H|(H1 & k & Ek & H2)]]; [auto|auto|]. right; right. split; [exact H1|]. exists k. split; [exact Ek|].
        destruct H2 as [H2|(j & q & Hj & Hq & Hm)].
        -- destruct (Htorn k H2) as [H3|H3]; [left; exact H3|]. right. exists O, p. split; [lia|]. split; [reflexivity|exact H3].
        -- right. exists (Datatypes.S j), q. split; [lia|]. split; [exact Hq|exact Hm].
Qed.
