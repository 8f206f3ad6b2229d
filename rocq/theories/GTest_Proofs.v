(** Every G-test implementation reports the right result, after any history of tests and from any
    saved state. *)
From Coq Require Import Reals Lra.
From Verif Require Import Base AD_Model AD_Query_Model AD_Spec AD_Proofs AD_More_Proofs AD_Tables_Proofs Key_Model Key_Spec Key_Proofs PMF_Model PMF_Spec
  Prob_Spec Info_Spec Table_Spec Prob_Proofs PMF_Proofs PMF_Cond_Proofs Info_Proofs PMF_Data_Proofs Table_Proofs SameInfo_Proofs
  MB_Model MB_Cache_Proofs GTest_Model GTest_Spec GTest_Tables_Proofs GTest_DoF_Proofs GTest_Cache_Proofs GTest_Impl_Proofs GTest_AD_Proofs.
Open Scope Z_scope.

Section GT.
  Variable D : dataset.
  Hypothesis WF : wf_dataset D.
  Hypothesis HR : rows D <> [].
  Variable p : params.
  Hypothesis HO : order_ok p.
  Notation S := (data_space D).
  Notation N := (Z.of_nat (length (rows D))).
  Let HS := data_probability D HR.

  (** ** Joint entropies *)
  Lemma entropy_nil : entropy S (proj []) = 0%R.
  Proof.
    unfold entropy. assert (E : forall a, pr1 S (proj []) (proj [] a) = 1%R).
    { intros a. unfold pr1. rewrite pr_sum. transitivity (SumOf (weight S) (outcomes S)); [apply SumOf_ext; intros; reflexivity|apply (proj2 HS)]. }
    erewrite map_ext; [|intros a; rewrite E, ln_1, Rmult_0_r; reflexivity]. 
    assert (Hz : forall l : list (list Z), Sum (map (fun _ => 0%R) l) = 0%R) by (induction l as [|x l IH]; simpl; [reflexivity|rewrite IH; lra]).
    rewrite Hz. lra.
  Qed.
  Notation jht_ok := (exact_entropies D).
  Definition coherent (kind : dof_kind) (j : jht_table) (c : dcache) : Prop :=
    kind = CachedStructuralDoF -> forall vars, NoDup vars -> (2 <= length vars)%nat -> assoc list_eqb (frozenset vars) j <> None -> assoc list_eqb (frozenset vars) c <> None.
  Definition h_ok (h : hstate) : Prop := jht_ok (h_jht h) /\ dcache_ok D (h_cache h).
  Notation hcoherent kind h := (coherent kind (h_jht h) (h_cache h)).
  Definition known (j : jht_table) (vars : list nat) : bool := match assoc list_eqb (frozenset vars) j with Some _ => true | None => false end.

  Lemma cache_DoFs_new c P c' P' k : cache_DoFs c P = Ok (c', P') -> assoc list_eqb k c' <> None -> assoc list_eqb k c <> None \/
    exists ids, variable_IDs P = Some ids /\ k = frozenset (map Z.to_nat ids).
  Proof.
    unfold cache_DoFs. destruct (variable_IDs P) as [ids|]; [|intros E; injection E as <- _; auto]. destruct (length ids <=? 1)%nat; [intros E; injection E as <- _; auto|].
    cbv zeta. destruct (assoc list_eqb (frozenset (map Z.to_nat ids)) c) eqn:Ea; [intros E; injection E as <- _; auto|].
    destruct (pairwise_DoFs (remove_zeros P) (length ids)) as [t|]; [|discriminate]. cbn [bind]. intros E. injection E as <- _. rewrite fset_get.
    destruct (list_eqb k (frozenset (map Z.to_nat ids))) eqn:Ek; [|auto]. intros _. apply list_eqb_eq in Ek. right. eauto.
  Qed.
  Lemma joint_entropy_ok kind vars h : h_ok h -> NoDup vars -> (forall v, In v vars -> (v < ncols D)%nat) ->
    exists h', joint_entropy D p kind vars h = Ok (entropy S (proj vars), h') /\ h_ok h' /\ (hcoherent kind h -> hcoherent kind h') /\
      (forall k, assoc list_eqb k (h_cache h') <> None -> assoc list_eqb k (h_cache h) <> None \/ (k = frozenset vars /\ assoc list_eqb k (h_jht h) = None)) /\
      (vars <> [] -> assoc list_eqb (frozenset vars) (h_jht h') <> None) /\
      (forall k, assoc list_eqb k (h_jht h) <> None -> assoc list_eqb k (h_jht h') = assoc list_eqb k (h_jht h)) /\
      (forall k, assoc list_eqb k (h_cache h) <> None -> assoc list_eqb k (h_cache h') <> None) /\
      h_reads h' = h_reads h + (if (match vars with [] => true | _ => false end) then 0 else 1) /\
      h_misses h' = h_misses h + (if (match vars with [] => true | _ => known (h_jht h) vars end) then 0 else 1) /\
      Z.of_nat (length (h_jht h')) = Z.of_nat (length (h_jht h)) + (if (match vars with [] => true | _ => known (h_jht h) vars end) then 0 else 1).
  Proof.
    intros (H1 & H2) HN Hr. unfold joint_entropy. destruct vars as [|v0 vs].
    { exists h. rewrite entropy_nil. split; [reflexivity|]. split; [split; assumption|]. split; [auto|]. split; [auto|]. repeat split; auto; try lia; congruence. }
    remember (v0 :: vs) as vars eqn:Ev. assert (Hne : vars <> []) by (subst; discriminate). cbv zeta. unfold known.
    destruct (assoc list_eqb (frozenset vars) (h_jht h)) as [H|] eqn:Ea.
    { eexists. split; [rewrite (H1 _ _ Ea); reflexivity|]. cbn [h_jht h_cache h_reads h_misses]. split; [split; assumption|]. split; [auto|]. split; [auto|].
      split; [congruence|]. repeat split; auto; subst; lia. }
    destruct (HO vars) as (HNo & Hino).
    assert (Hno : set_order p vars <> []) by (intros E; specialize (Hino v0); rewrite E in Hino; apply Hino; subst; left; reflexivity).
    destruct (get_variables_set_ok D (set_order p vars) Hno) as (E1 & O1); [intros c Hc; apply Hr, Hino; assumption|].
    rewrite E1. cbn [bind].
    destruct (plain_pmf D HR _ _ O1) as (P & E2 & T2 & Hnz & V2). rewrite E2. cbn [bind].
    rewrite (entropy_code S (proj (set_order p vars)) P (proj1 HS) (table_dist _ _ _ _ T2) Hnz). cbn [bind].
    destruct (set_context_ok D HR kind (h_cache h) [P] [(set_order p vars, set_order p vars)] H2) as (c' & Ps' & E3 & Hc' & _ & Hm & Hin).
    { constructor; [|constructor]. apply described_table; auto. }
    rewrite E3. cbn [bind].
    assert (Een : (- - entropy S (proj (set_order p vars)))%R = entropy S (proj vars)).
    { rewrite Ropp_involutive. apply same_entropy. apply proj_same. assumption. }
    rewrite Een. eexists. split; [reflexivity|]. cbn [h_jht h_cache h_reads h_misses].
    split; [split; [|assumption]|split; [|split]].
    - intros ws H. cbn [h_jht]. rewrite fset_get. destruct (list_eqb (frozenset ws) (frozenset vars)) eqn:E; [|apply H1].
      intros EH. injection EH as <-. apply list_eqb_eq in E. apply frozenset_eq in E. apply same_entropy, proj_same. intros c. symmetry. apply E.
    - intros H3 Hk ws HNw Hlw. cbn [h_jht h_cache]. rewrite fset_get. destruct (list_eqb (frozenset ws) (frozenset vars)) eqn:E.
      + intros _. apply list_eqb_eq in E. rewrite E. assert (Es : frozenset vars = frozenset (set_order p vars)) by (apply frozenset_eq; intros c; symmetry; apply Hino).
        rewrite Es. apply (Hin Hk P (set_order p vars, set_order p vars)); [reflexivity|reflexivity|rewrite V2; discriminate|]. cbn [fst].
        rewrite (NoDup_same_length (set_order p vars) ws); auto. intros c. rewrite Hino. apply frozenset_eq in E. symmetry. apply E.
      + intros Hj. apply Hm. apply H3; assumption.
    - intros k Hk. assert (Es : frozenset vars = frozenset (set_order p vars)) by (apply frozenset_eq; intros c; symmetry; apply Hino).
      destruct kind; cbn [set_context_pmfs] in E3; [injection E3 as <- _; auto|injection E3 as <- _; auto|].
      destruct (cache_DoFs (h_cache h) P) as [[c1 P1]|] eqn:E4; [|discriminate]. cbn [bind] in E3. injection E3 as <- _.
      destruct (cache_DoFs_new _ _ _ _ k E4 Hk) as [Hold|(ids & Ei & ->)]; [auto|]. rewrite V2 in Ei. injection Ei as <-. rewrite to_of_nat, <- Es. auto.
    - split; [intros _; rewrite fset_get, list_eqb_refl; discriminate|]. split; [|split; [assumption|]].
      + intros k Hk. rewrite fset_get. destruct (list_eqb k (frozenset vars)) eqn:E; [|reflexivity]. apply list_eqb_eq in E. subst k. congruence.
      + subst vars. split; [reflexivity|]. split; [reflexivity|].
        assert (Hlen : forall (j : jht_table) k (x : R), assoc list_eqb k j = None -> length (assoc_set list_eqb k x j) = Datatypes.S (length j)).
        { induction j as [|[k1 x1] j IH]; intros k x E; simpl in *; [reflexivity|]. destruct (list_eqb k k1); [discriminate|]. simpl. rewrite IH; auto. }
        rewrite Hlen by assumption. lia.
  Qed.

  Definition test_sets (X Y : nat) (Z : list nat) : list (list nat) := [X :: Y :: Z; X :: Z; Y :: Z; Z].
  Definition all_known (j : jht_table) X Y Z : Prop := forall vs, In vs (test_sets X Y Z) -> vs <> [] -> assoc list_eqb (frozenset vs) j <> None.
  Lemma G_from_entropies_ok kind h X Y Z : h_ok h -> NoDup (X :: Y :: Z) -> (forall v, In v (X :: Y :: Z) -> (v < ncols D)%nat) ->
    exists h', G_from_entropies D p kind N X Y Z h = Ok (G_statistic D X Y Z, h') /\ h_ok h' /\ (hcoherent kind h -> hcoherent kind h') /\
      (hcoherent kind h -> kind = CachedStructuralDoF -> assoc list_eqb (frozenset (X :: Y :: Z)) (h_cache h') <> None) /\
      (assoc list_eqb (frozenset (X :: Y :: Z)) (h_jht h) <> None -> assoc list_eqb (frozenset (X :: Y :: Z)) (h_cache h) = None ->
         assoc list_eqb (frozenset (X :: Y :: Z)) (h_cache h') = None) /\
      (forall k, assoc list_eqb k (h_cache h) <> None -> assoc list_eqb k (h_cache h') <> None) /\
      all_known (h_jht h') X Y Z /\
      (forall k, assoc list_eqb k (h_jht h) <> None -> assoc list_eqb k (h_jht h') = assoc list_eqb k (h_jht h)) /\
      h_reads h' = h_reads h + (match Z with [] => 3 | _ => 4 end) /\
      h_misses h' - h_misses h = Z.of_nat (length (h_jht h')) - Z.of_nat (length (h_jht h)) /\
      (all_known (h_jht h) X Y Z -> h_misses h' = h_misses h).
  Proof.
    intros Hh HN Hr. inversion HN as [|? ? NX HN']; subst. inversion HN' as [|? ? NY HNZ]; subst.
    assert (NXZ : NoDup (X :: Z)) by (constructor; [intros H; apply NX; right; assumption|assumption]).
    unfold G_from_entropies.
    destruct (joint_entropy_ok kind (X :: Y :: Z) h Hh HN Hr) as (h1 & E1 & Hh1 & F1 & A1 & K1 & M1 & C1 & R1 & S1 & L1). rewrite E1. cbn [bind].
    destruct (joint_entropy_ok kind (X :: Z) h1 Hh1 NXZ) as (h2 & E2 & Hh2 & F2 & A2 & K2 & M2 & C2 & R2 & S2 & L2); [intros v Hv; apply Hr; simpl in *; tauto|]. rewrite E2. cbn [bind].
    destruct (joint_entropy_ok kind (Y :: Z) h2 Hh2 HN') as (h3 & E3 & Hh3 & F3 & A3 & K3 & M3 & C3 & R3 & S3 & L3); [intros v Hv; apply Hr; simpl in *; tauto|]. rewrite E3. cbn [bind].
    destruct (joint_entropy_ok kind Z h3 Hh3 HNZ) as (h4 & E4 & Hh4 & F4 & A4 & K4 & M4 & C4 & R4 & S4 & L4); [intros v Hv; apply Hr; simpl in *; tauto|]. rewrite E4. cbn [bind].
    exists h4. split.
    { f_equal. f_equal. unfold G_statistic. rewrite <- INR_IZR_INZ. f_equal. symmetry.
      assert (Hpr : forall a c, pr1 S (proj (c :: Z)) (proj (c :: Z) a) = pr2 S (proj [c]) (proj [c] a) (proj Z) (proj Z a)).
      { intros a c. apply pr_ext. intros b _. cbn [proj map]. apply eq_true_iff_eq. rewrite andb_true_iff, !eqv_true.
        change (map (fun c0 => nth c0 b 0) Z) with (proj Z b). change (map (fun c0 => nth c0 a 0) Z) with (proj Z a). split; [intros E; injection E as -> ->; auto|intros (E & ->); injection E as ->; reflexivity]. }
      apply (cmi_entropies S HS); [|intros a _; apply Hpr|intros a _; apply Hpr].
      intros a _. apply pr_ext. intros b _. cbn [proj map]. apply eq_true_iff_eq. rewrite !andb_true_iff, !eqv_true.
      change (map (fun c0 => nth c0 b 0) Z) with (proj Z b). change (map (fun c0 => nth c0 a 0) Z) with (proj Z a).
      split; [intros E; injection E as -> -> ->; auto|intros ((Ea & Eb) & ->); injection Ea as ->; injection Eb as ->; reflexivity]. }
    split; [assumption|].
    assert (J : forall k, assoc list_eqb k (h_jht h) <> None -> assoc list_eqb k (h_jht h1) <> None) by (intros k Hk; rewrite M1; assumption).
    assert (J1 : forall k, assoc list_eqb k (h_jht h1) <> None -> assoc list_eqb k (h_jht h2) <> None) by (intros k Hk; rewrite M2; assumption).
    assert (J2 : forall k, assoc list_eqb k (h_jht h2) <> None -> assoc list_eqb k (h_jht h3) <> None) by (intros k Hk; rewrite M3; assumption).
    assert (J3 : forall k, assoc list_eqb k (h_jht h3) <> None -> assoc list_eqb k (h_jht h4) <> None) by (intros k Hk; rewrite M4; assumption).
    split; [auto|]. split; [|split; [|split; [auto|split; [|split; [|split; [|split]]]]]].
    - intros Hco Hk. apply (F4 (F3 (F2 (F1 Hco))) Hk); [assumption|simpl; lia|]. apply J3, J2, J1, K1. discriminate.
    - intros Hj Hn. destruct (assoc list_eqb (frozenset (X :: Y :: Z)) (h_cache h4)) eqn:E; [exfalso|reflexivity].
      assert (E' : assoc list_eqb (frozenset (X :: Y :: Z)) (h_cache h4) <> None) by congruence. clear E.
      apply A4 in E' as [E'|(_ & E')]; [|apply J2 in E'; auto]. apply A3 in E' as [E'|(_ & E')]; [|apply J1 in E'; auto].
      apply A2 in E' as [E'|(_ & E')]; [|apply J in E'; auto]. apply A1 in E' as [E'|(_ & E')]; contradiction.
    - intros vs [<-|[<-|[<-|[<-|[]]]]] Hne; auto; apply J3; auto; apply J2; auto; apply J1; auto.
    - intros k Hk. rewrite M4, M3, M2, M1; auto.
    - rewrite R4, R3, R2, R1. destruct Z; lia.
    - lia.
    - intros Hak. assert (Kn : forall j vs, assoc list_eqb (frozenset vs) j <> None -> known j vs = true) by (intros j vs Hj; unfold known; destruct (assoc list_eqb (frozenset vs) j); congruence).
      rewrite S4, S3, S2, S1. rewrite (Kn (h_jht h) (X :: Y :: Z)) by (apply Hak; [simpl; auto|discriminate]).
      rewrite (Kn (h_jht h1) (X :: Z)) by (apply J, Hak; [simpl; auto|discriminate]).
      rewrite (Kn (h_jht h2) (Y :: Z)) by (apply J1, J, Hak; [simpl; auto|discriminate]).
      destruct Z as [|z Z]; [lia|]. rewrite (Kn (h_jht h3) (z :: Z)) by (apply J2, J1, J, Hak; [simpl; auto|discriminate]). lia.
  Qed.

  (** ** Decision *)
  Lemma decide_ok kind index X Y Z : exists r, decide p N index X Y Z (dof_for D kind X Y Z) (Ok (G_statistic D X Y Z)) = Ok r /\
    expected_result D p kind index X Y Z r.
  Proof.
    unfold decide. change (sufficient_samples p N (dof_for D kind X Y Z)) with (enough D p (dof_for D kind X Y Z)).
    destruct (enough D p (dof_for D kind X Y Z)) eqn:E; (eexists; split; [reflexivity|]); unfold expected_result; cbn; rewrite ?E.
    - repeat split; try discriminate. exists (if Rlt_dec (chi2_cdf p (G_statistic D X Y Z) (dof_for D kind X Y Z)) (significance p) then true else false). split; [reflexivity|].
      destruct (Rlt_dec _ _); split; auto; discriminate.
    - repeat split; try discriminate.
  Qed.

  (** ** One test *)
  Definition inv (im : impl) (kind : dof_kind) (st : state) : Prop :=
    sample_size st = N /\ dcache_ok D (dof_cache st) /\
    match im with
    | Plain => True
    | WithADTree dyn => exists t, ad_tree st = Some t /\ ok_root D dyn t
    | WithDcMI => jht_ok (jht st) /\ coherent kind (jht st) (dof_cache st)
    end.
  Theorem run_test_ok im kind st X Y Z : wf_for D im -> compatible im kind -> inv im kind st -> wf_test D (X, Y, Z) ->
    exists r st', run_test D p im kind st X Y Z = Ok (r, st') /\ inv im kind st' /\
      expected_result D p kind (ci_test_counter st + 1) X Y Z r /\ results st' = results st ++ [r] /\ ci_test_counter st' = ci_test_counter st + 1 /\
      (im = WithDcMI -> all_known (jht st') X Y Z /\ jht_reads st' = jht_reads st + (match Z with [] => 3 | _ => 4 end) /\
         jht_misses st' - jht_misses st = Z.of_nat (length (jht st')) - Z.of_nat (length (jht st)) /\
         (forall k, assoc list_eqb k (jht st) <> None -> assoc list_eqb k (jht st') = assoc list_eqb k (jht st)) /\
         (all_known (jht st) X Y Z -> jht_misses st' = jht_misses st) /\
         (forall k, assoc list_eqb k (dof_cache st) <> None -> assoc list_eqb k (dof_cache st') <> None)).
  Proof.
    intros (_ & _ & Hwf) Hcomp (HN & Hc & Him) (HND & Hr). unfold run_test. rewrite HN.
    destruct (decide_ok kind (ci_test_counter st + 1) X Y Z) as (r & Er & Hres).
    destruct im as [|dyn|].
    - destruct (plain_tables_ok D HR kind (dof_cache st) X Y Z HND Hr Hc) as (CXY & CX & CY & PZ & c' & E1 & Hg & Hc' & Hk). rewrite E1. cbn [bind].
      destruct (good_DoF D WF HR kind c' X Y Z CXY CX CY PZ Hg HND Hr Hc' Hk) as (CX' & CY' & E2 & Hg'). rewrite E2. cbn [bind].
      rewrite (good_G D HR _ _ _ _ _ _ _ Hg'). rewrite Er. cbn [bind]. eexists _, _. split; [reflexivity|]. cbn.
      split; [split; [assumption|split; [assumption|exact I]]|]. split; [exact Hres|]. split; [reflexivity|]. split; [reflexivity|discriminate].
    - destruct Him as (t & Et & Ht). rewrite Et. cbn [of_option bind]. destruct Hwf as (NM & TH).
      destruct (ad_tables_ok D WF HR NM TH dyn kind (dof_cache st) t X Y Z Ht HND Hr Hc) as (CXY & CX & CY & PZ & c' & t' & E1 & Ht' & Hg & Hc' & Hk). rewrite E1. cbn [bind].
      destruct (good_DoF D WF HR kind c' X Y Z CXY CX CY PZ Hg HND Hr Hc' Hk) as (CX' & CY' & E2 & Hg'). rewrite E2. cbn [bind].
      rewrite (good_G D HR _ _ _ _ _ _ _ Hg'). rewrite Er. cbn [bind]. eexists _, _. split; [reflexivity|]. cbn.
      split; [split; [assumption|split; [assumption|exists t'; split; [reflexivity|assumption]]]|]. split; [exact Hres|]. split; [reflexivity|]. split; [reflexivity|discriminate].
    - destruct Him as (Hj & Hco).
      destruct (G_from_entropies_ok kind (hstate_of st (dof_cache st)) X Y Z (conj Hj Hc) HND Hr) as (h & E1 & (Hj' & Hc') & Hco' & Hk & _ & Hck & Hak & Hkeep & Hrd & Hms & Hm0).
      specialize (Hco' Hco). specialize (Hk Hco). rewrite E1. cbn [bind].
      assert (E2 : calculate_DoF D kind (h_cache h) X Y Z [] [] empty_pmf = Ok (dof_for D kind X Y Z, [], [])).
      { destruct kind; cbn [calculate_DoF dof_for]; [rewrite unadjusted_ok by assumption; reflexivity|exfalso; apply Hcomp; reflexivity|rewrite (Hc' X Y Z HND (Hk eq_refl)); reflexivity]. }
      rewrite E2. cbn [bind]. rewrite Er. cbn [bind]. eexists _, _. split; [reflexivity|]. cbn.
      split; [split; [assumption|split; [assumption|split; assumption]]|]. split; [assumption|]. split; [reflexivity|]. split; [reflexivity|].
      intros _. split; [assumption|]. split; [assumption|]. split; [assumption|]. split; [assumption|]. split; [exact Hm0|exact Hck].
  Qed.

  (** entropies without the DoF table of the same variables: KeyError *)
  Lemma run_test_keyerror st X Y Z : sample_size st = N -> jht_ok (jht st) -> dcache_ok D (dof_cache st) -> wf_test D (X, Y, Z) ->
    assoc list_eqb (frozenset (X :: Y :: Z)) (jht st) <> None -> assoc list_eqb (frozenset (X :: Y :: Z)) (dof_cache st) = None ->
    run_test D p WithDcMI CachedStructuralDoF st X Y Z = Err KeyError.
  Proof.
    intros HN Hj Hc (HND & Hr) H1 H2. unfold run_test. rewrite HN.
    destruct (G_from_entropies_ok CachedStructuralDoF (hstate_of st (dof_cache st)) X Y Z (conj Hj Hc) HND Hr) as (h & E1 & _ & _ & _ & Hk & _).
    rewrite E1. cbn [bind calculate_DoF]. unfold cached_DoF. rewrite (Hk H1 H2). reflexivity.
  Qed.

  (** ** Histories *)
  Lemma result_outcome kind n X Y Z r : expected_result D p kind n X Y Z r -> expected_outcome D p kind (X, Y, Z) (outcome_of r).
  Proof.
    intros (_ & _ & _ & _ & _ & H1 & H2). unfold expected_outcome, outcome_of. destruct (enough D p (dof_for D kind X Y Z)).
    - destruct (H1 eq_refl) as (_ & _ & b & -> & Hb). auto.
    - destruct (H2 eq_refl) as (-> & _). reflexivity.
  Qed.
  Theorem run_tests_ok im kind tests : wf_for D im -> compatible im kind -> Forall (wf_test D) tests -> forall st, inv im kind st ->
    exists os st' rs, run_tests D p im kind st tests = Ok (os, st') /\ inv im kind st' /\ Forall2 (expected_outcome D p kind) tests os /\
      results st' = results st ++ rs /\ logged D p kind (ci_test_counter st) tests rs /\ ci_test_counter st' = ci_test_counter st + Z.of_nat (length tests) /\
      (im = WithDcMI -> jht_reads st' = jht_reads st + zsum (map entropies_needed tests) /\
        jht_misses st' - jht_misses st = Z.of_nat (length (jht st')) - Z.of_nat (length (jht st)) /\
        (forall k, assoc list_eqb k (jht st) <> None -> assoc list_eqb k (jht st') = assoc list_eqb k (jht st)) /\
        (forall k, assoc list_eqb k (dof_cache st) <> None -> assoc list_eqb k (dof_cache st') <> None)).
  Proof.
    intros Hw Hcm Ht. induction Ht as [|[[X Y] Z] tests Hwt Ht IH]; intros st Hi.
    - exists [], st, []. split; [reflexivity|]. split; [assumption|]. split; [constructor|]. rewrite app_nil_r. split; [reflexivity|].
      split; [split; [reflexivity|intros [|i]; discriminate]|]. split; [simpl; lia|]. intros _. repeat split; auto; simpl; lia.
    - destruct (run_test_ok im kind st X Y Z Hw Hcm Hi Hwt) as (r & st1 & E1 & Hi1 & Hr1 & El1 & Ec1 & Hd1).
      destruct (IH st1 Hi1) as (os & st2 & rs & E2 & Hi2 & Ho2 & El2 & (Hlen & Hlog) & Ec2 & Hd2).
      exists (outcome_of r :: os), st2, (r :: rs). cbn [run_tests]. unfold conditionally_independent. rewrite E1. cbn [bind]. rewrite E2. cbn [bind].
      split; [reflexivity|]. split; [assumption|]. split; [constructor; [eapply result_outcome; eassumption|assumption]|].
      split; [rewrite El2, El1, <- app_assoc; reflexivity|]. split; [split|split].
      + simpl. congruence.
      + intros [|i] X' Y' Z' r' Et Er; cbn [nth_error] in Et, Er.
        * injection Et as <- <- <-. injection Er as <-. replace (ci_test_counter st + Z.of_nat 0 + 1) with (ci_test_counter st + 1) by lia. assumption.
        * replace (ci_test_counter st + Z.of_nat (Datatypes.S i) + 1) with (ci_test_counter st1 + Z.of_nat i + 1) by lia. eapply Hlog; eassumption.
      + rewrite Ec2, Ec1. simpl length. lia.
      + intros Him. destruct (Hd1 Him) as (_ & H1 & H2 & H3 & _ & H5). destruct (Hd2 Him) as (G1 & G2 & G3 & G5).
        split; [cbn [map zsum fold_right snd]; rewrite G1, H1; change (fold_right Z.add 0 (map entropies_needed tests)) with (zsum (map entropies_needed tests)); unfold entropies_needed at 2; cbn [snd]; lia|]. split; [lia|]. split; [|auto].
        intros k Hk. rewrite G3 by (rewrite H3; assumption). apply H3. assumption.
  Qed.

  (** ** Files *)
  Definition disk_ok (im : impl) (kind : dof_kind) (d : disk) : Prop :=
    (kind = CachedStructuralDoF -> forall c, f_dofs d = Saved c -> dcache_ok D c) /\
    (im = WithDcMI -> forall j, f_jht d = Saved j -> jht_ok (fst j) /\ snd j <> None /\
       (kind = CachedStructuralDoF -> f_dofs d = Torn \/ exists c, f_dofs d = Saved c /\ coherent kind (fst j) c)).
  (** no file that the object reads is damaged *)
  Definition intact (im : impl) (kind : dof_kind) (d : disk) : Prop :=
    (kind = CachedStructuralDoF -> f_dofs d <> Torn) /\ (im = WithDcMI -> f_jht d <> Torn).
  Lemma dcache_nil : dcache_ok D [].
  Proof. intros X Y Z _ H. exfalso. apply H. reflexivity. Qed.
  Lemma jht_nil : jht_ok [].
  Proof. intros vars H E. discriminate. Qed.
  Lemma coherent_nil kind c : coherent kind [] c.
  Proof. intros _ vars _ _ H. exfalso. apply H. reflexivity. Qed.
  Lemma coherent_mono kind j c c' : coherent kind j c -> (forall k, assoc list_eqb k c <> None -> assoc list_eqb k c' <> None) -> coherent kind j c'.
  Proof. intros H Hm Hk vars HN Hl Hj. apply Hm. apply H; assumption. Qed.
  Lemma start_ok im kind d : wf_for D im -> compatible im kind -> disk_ok im kind d ->
    (exists st, start D im kind None None d = Ok st /\ inv im kind st /\ results st = [] /\ ci_test_counter st = 0 /\
       (kind = CachedStructuralDoF -> dof_cache st = match f_dofs d with Saved c => c | _ => [] end)) \/
    (start D im kind None None d = Err PickleErr /\ ~ intact im kind d).
  Proof.
    intros (_ & _ & Hw) Hcm (Hd1 & Hd2). unfold start.
    assert (Hc : (exists c, (match kind with CachedStructuralDoF => read_file [] (f_dofs d) | _ => Ok [] end) = Ok c /\ dcache_ok D c /\
        (kind = CachedStructuralDoF -> c = match f_dofs d with Saved c => c | _ => [] end /\ f_dofs d <> Torn)) \/
      ((match kind with CachedStructuralDoF => read_file [] (f_dofs d) | _ => Ok [] end) = Err PickleErr /\ ~ intact im kind d)).
    { destruct kind; [left; exists []; repeat split; [apply dcache_nil|discriminate..]|left; exists []; repeat split; [apply dcache_nil|discriminate..]|].
      destruct (f_dofs d) as [| |c] eqn:E; cbn [read_file].
      - left. exists []. repeat split; [apply dcache_nil|discriminate].
      - right. split; [reflexivity|]. intros (H & _). apply (H eq_refl E).
      - left. exists c. repeat split; [apply Hd1; auto|discriminate]. }
    destruct Hc as [(c & E & Hc & Hcc)|(E & Hni)]; rewrite E; cbn [bind]; [|right; auto].
    destruct im as [|dyn|].
    - left. eexists. split; [reflexivity|]. cbn. split; [split; [reflexivity|split; [assumption|exact I]]|]. repeat split. intros Hk. apply Hcc, Hk.
    - left. destruct Hw as (NM & TH). destruct (build_tree_ok D WF dyn TH) as (t & Et & Ht). rewrite Et. cbn [bind].
      destruct (query_count_ok D WF dyn t []) as (t' & Eq & Ht'); [exact Ht|split; [constructor|intros ? ? []]|]. rewrite Eq. cbn [bind].
      eexists. split; [reflexivity|]. cbn. split; [split; [|split; [assumption|exists t'; auto]]|].
      + cbn [sample_size]. unfold count_matching. f_equal. clear. induction (rows D) as [|x l IH]; cbn [filter row_agrees forallb length]; [reflexivity|rewrite IH; reflexivity].
      + repeat split. intros Hk. apply Hcc, Hk.
    - assert (Hrc : requires_cpmfs kind = false) by (destruct kind; try reflexivity; exfalso; apply Hcm; reflexivity). rewrite Hrc. cbv zeta.
      destruct (f_jht d) as [| |j] eqn:Ej.
      + left. eexists. split; [reflexivity|]. cbn. split; [split; [reflexivity|split; [assumption|split; [apply jht_nil|apply coherent_nil]]]|]. repeat split. intros Hk. apply Hcc, Hk.
      + right. split; [reflexivity|]. intros (_ & H). apply (H eq_refl Ej).
      + destruct (Hd2 eq_refl j eq_refl) as (Hj & Hn & Hco). destruct (snd j) as [[rd ms]|]; [|congruence]. cbn [of_option bind]. left. eexists. split; [reflexivity|]. cbn.
        split; [split; [reflexivity|split; [assumption|split; [assumption|]]]|].
        * intros Hk. destruct (Hcc Hk) as (-> & Hnt). destruct (Hco Hk) as [Ht|(c' & Ec & Hcoh)]; [contradiction|]. rewrite Ec. apply Hcoh; assumption.
        * repeat split. intros Hk. apply Hcc, Hk.
  Qed.

  Lemma end_ok im kind d st steps : disk_ok im kind d -> inv im kind st ->
    (kind = CachedStructuralDoF -> im = WithDcMI -> forall j, f_jht d = Saved j -> coherent kind (fst j) (dof_cache st)) ->
    disk_ok im kind (end_crashing im kind st steps d) /\
    (intact im kind d -> Nat.even steps = true -> intact im kind (end_crashing im kind st steps d)).
  Proof.
    intros (Hd1 & Hd2) (_ & Hc & Him) Hold. unfold end_crashing.
    assert (Hst : kind = CachedStructuralDoF -> im = WithDcMI -> coherent kind (jht st) (dof_cache st)) by (intros _ ->; apply Him).
    assert (Hjt : im = WithDcMI -> jht_ok (jht st)) by (intros ->; apply Him).
    destruct steps as [|[|[|[|[|[|steps]]]]]]; destruct im as [|dyn|], kind; cbn; rewrite ?firstn_nil; cbn;
      (split; [split; cbn; [try discriminate; try exact Hd1; intros _ c E; try discriminate; injection E as <-; exact Hc|
                      try discriminate; intros _ j E; try discriminate;
                      first [destruct (Hd2 eq_refl j E) as (G1 & G2 & G3) | injection E as <-];
                      (split; [try assumption; apply Hjt; reflexivity|split; [try assumption; discriminate|
                        intros Hk; try discriminate Hk; auto; try (right; eexists; split; [reflexivity|]; first [apply Hst; reflexivity|apply Hold; auto])]])]|
              intros (I1 & I2) Hev; try discriminate Hev; split; cbn; intros; try discriminate; auto]).
  Qed.
  Theorem run_sessions_ok im kind ss : wf_for D im -> compatible im kind -> Forall (fun s => Forall (wf_test D) (s_tests s)) ss ->
    forall d, disk_ok im kind d ->
    Forall2 (fun s o => o = Err PickleErr \/ exists os, o = Ok os /\ Forall2 (expected_outcome D p kind) (s_tests s) os) ss (fst (run_sessions D p im kind ss d)) /\
    disk_ok im kind (snd (run_sessions D p im kind ss d)) /\
    (intact im kind d -> Forall (fun s => Nat.even (s_steps s) = true) ss -> Forall (fun o => o <> Err PickleErr) (fst (run_sessions D p im kind ss d))).
  Proof.
    intros Hw Hcm Hss. induction Hss as [|s ss Hs Hss IH]; intros d Hd; cbn [run_sessions].
    - split; [constructor|]. split; [assumption|constructor].
    - destruct (start_ok im kind d Hw Hcm Hd) as [(st & E & Hi & _ & _ & Hcc)|(E & Hni)]; rewrite E.
      + destruct (run_tests_ok im kind (s_tests s) Hw Hcm Hs st Hi) as (os & st' & rs & E2 & Hi' & Ho & _ & _ & _ & Hdc). rewrite E2.
        destruct (end_ok im kind d st' (s_steps s) Hd Hi') as (Hd' & Hin').
        { intros Hk Him j Ej. destruct (proj2 Hd Him j Ej) as (_ & _ & Hco). destruct (Hdc Him) as (_ & _ & _ & Hm). destruct (Hco Hk) as [Ht|(c & Ec & Hcoh)].
          - exfalso. unfold start in E. rewrite Hk, Ht in E. discriminate.
          - eapply coherent_mono; [exact Hcoh|]. intros k. specialize (Hm k). rewrite (Hcc Hk), Ec in Hm. exact Hm. }
        specialize (IH _ Hd'). destruct (run_sessions D p im kind ss (end_crashing im kind st' (s_steps s) d)) as [rest d2]. cbn [fst snd] in *.
        destruct IH as (I1 & I2 & I3). split; [constructor; [right; eauto|assumption]|]. split; [assumption|].
        intros Hint Hev. inversion Hev; subst. constructor; [discriminate|]. apply I3; [apply Hin'; assumption|assumption].
      + specialize (IH d Hd). destruct (run_sessions D p im kind ss d) as [rest d2]. cbn [fst snd] in *. destruct IH as (I1 & I2 & I3).
        split; [constructor; [left; reflexivity|assumption]|]. split; [assumption|]. intros Hint. contradiction.
  Qed.
End GT.
