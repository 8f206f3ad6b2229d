(** Each implementation of the G-test obtains exact tables or entropies, and keeps its caches exact. *)
From Coq Require Import Reals Lra.
From Verif Require Import Base AD_Model AD_Query_Model AD_Spec AD_Proofs AD_More_Proofs AD_Tables_Proofs Key_Model Key_Spec Key_Proofs PMF_Model PMF_Spec
  Prob_Spec Info_Spec Table_Spec Prob_Proofs PMF_Proofs PMF_Cond_Proofs Info_Proofs PMF_Data_Proofs Table_Proofs SameInfo_Proofs
  MB_Model MB_Cache_Proofs GTest_Model GTest_Spec GTest_Tables_Proofs GTest_DoF_Proofs GTest_Cache_Proofs.
Open Scope Z_scope.

Lemma sort_idem l : NoDup l -> sort_nat (sort_nat l) = sort_nat l.
Proof.
  intros H. apply strict_unique; [apply sort_strict, (Permutation_NoDup (sort_perm l)), H|apply sort_strict, H|].
  intros x. rewrite !sort_in. reflexivity.
Qed.
Lemma sort_pair X Y : X <> Y -> sort_nat [X; Y] = [X; Y] \/ sort_nat [X; Y] = [Y; X].
Proof. intros H. cbn. destruct (X <=? Y)%nat; auto. Qed.

Lemma Forall2_imp {A B} (P Q : A -> B -> Prop) l m : (forall a b, P a b -> Q a b) -> Forall2 P l m -> Forall2 Q l m.
Proof. intros H. induction 1; constructor; auto. Qed.

Section Impl.
  Variable D : dataset.
  Hypothesis WF : wf_dataset D.
  Hypothesis HR : rows D <> [].
  Notation S := (data_space D).
  Let HS := data_probability D HR.

  (** ** what a test needs *)
  Definition good (X Y : nat) (Z : list nat) (CXY CX CY : cpmf) (PZ : pmf) : Prop :=
    exists zrv, same_info (rows D) zrv (proj Z) /\
      cond_table S (fun a => proj [X] a ++ proj [Y] a) zrv CXY /\ cond_plain CXY /\
      cond_table S (proj [X]) zrv CX /\ cond_table S (proj [Y]) zrv CY /\ distribution S zrv (probabilities PZ).
  Lemma good_G X Y Z CXY CX CY PZ : good X Y Z CXY CX CY PZ ->
    G_from_tables (Z.of_nat (length (rows D))) CXY CX CY PZ = Ok (G_statistic D X Y Z).
  Proof.
    intros (zrv & Hs & H1 & H2 & H3 & H4 & H5). unfold G_from_tables.
    destruct (cmi_code_ok S (proj [X]) (proj [Y]) zrv 1 CXY CX CY PZ BaseE) as (_ & E); auto; try (simpl; lra); try (apply HS); try exact I.
    rewrite E. cbn [bind base_factor]. unfold G_statistic. rewrite Rmult_1_r, <- INR_IZR_INZ.
    rewrite (same_cmi S (proj [X]) (proj [X]) (proj [Y]) (proj [Y]) zrv (proj Z)); [reflexivity|apply same_info_refl..|exact Hs].
  Qed.
  Lemma good_DoF kind c X Y Z CXY CX CY PZ : good X Y Z CXY CX CY PZ -> NoDup (X :: Y :: Z) -> (forall v, In v (X :: Y :: Z) -> (v < ncols D)%nat) ->
    dcache_ok D c -> (kind = CachedStructuralDoF -> assoc list_eqb (frozenset (X :: Y :: Z)) c <> None) ->
    exists CX' CY', calculate_DoF D kind c X Y Z CX CY PZ = Ok (dof_for D kind X Y Z, CX', CY') /\ good X Y Z CXY CX' CY' PZ.
  Proof.
    intros Hg HN Hr Hc Hp. destruct kind; cbn [calculate_DoF dof_for].
    - rewrite unadjusted_ok by assumption. cbn [bind]. eauto.
    - destruct Hg as (zrv & Hs & H1 & H2 & H3 & H4 & H5). destruct (structural_DoF_ok D HR _ _ _ _ _ _ H3 H4 H5) as (CX' & CY' & E & H3' & H4').
      exists CX', CY'. rewrite E. split.
      + f_equal. f_equal. f_equal. rewrite structural_dof_sdof. f_equal. apply sdof_same; [apply same_info_refl..|assumption].
      + exists zrv. split; [assumption|]. split; [assumption|]. split; [assumption|]. split; [assumption|]. split; assumption.
    - rewrite (Hc X Y Z HN (Hp eq_refl)). cbn [bind]. eauto.
  Qed.

  (** set_context_pmfs *)
  Definition described (P : pmf) (q : list nat * list nat) : Prop :=
    pmf_of D (snd q) P /\ NoDup (snd q) /\ (fst q = snd q \/ exists a b, fst q = [a; b] /\ snd q = [b; a]) /\
    (variable_IDs P = Some (map Z.of_nat (fst q)) \/ variable_IDs P = None).
  Lemma set_context_ok kind c Ps qs : dcache_ok D c -> Forall2 described Ps qs ->
    exists c' Ps', set_context_pmfs kind c Ps = Ok (c', Ps') /\ dcache_ok D c' /\ Forall2 (fun P q => pmf_of D (snd q) P) Ps' qs /\
      (forall k, assoc list_eqb k c <> None -> assoc list_eqb k c' <> None) /\
      (kind = CachedStructuralDoF -> forall P q, hd_error Ps = Some P -> hd_error qs = Some q -> variable_IDs P <> None -> (2 <= length (fst q))%nat ->
         assoc list_eqb (frozenset (fst q)) c' <> None).
  Proof.
    intros Hc H. revert c Hc. induction H as [|P q Ps qs HP H IH]; intros c Hc.
    - exists c, []. split; [reflexivity|]. repeat split; auto. discriminate.
    - assert (Hkeep : Forall2 (fun P q => pmf_of D (snd q) P) (P :: Ps) (q :: qs)).
      { constructor; [apply HP|]. eapply Forall2_imp; [|exact H]. intros ? ? K; apply K. }
      destruct kind.
      + exists c, (P :: Ps). split; [reflexivity|]. repeat split; auto. discriminate.
      + exists c, (P :: Ps). split; [reflexivity|]. repeat split; auto. discriminate.
      + destruct HP as (HP1 & HP2 & HP3 & HP4). destruct (cache_DoFs_ok D HR c P (fst q) (snd q) Hc HP1 HP2 HP3 HP4) as (c1 & P1 & E1 & Hc1 & HP1' & Hm1 & Hin1 & _).
        destruct (IH c1 Hc1) as (c2 & Ps2 & E2 & Hc2 & HPs2 & Hm2 & _).
        exists c2, (P1 :: Ps2). cbn [set_context_pmfs]. rewrite E1. cbn [bind]. rewrite E2. cbn [bind]. split; [reflexivity|]. split; [assumption|]. split; [constructor; assumption|].
        split; [auto|]. intros _ P' q' EP Eq Hv Hl. injection EP as <-. injection Eq as <-. auto.
  Qed.

  (** ** tables for an empty conditioning set *)
  Lemma good_empty X Y PXY PX PY : pmf_of D [X; Y] PXY -> pmf_of D [X] PX -> pmf_of D [Y] PY ->
    good X Y [] (omega_cpmf PXY) (omega_cpmf PX) (omega_cpmf PY) omega_pmf.
  Proof.
    intros H1 H2 H3. exists (fun _ => [1]). split; [intros a b _ _; split; reflexivity|].
    split; [apply (omega_table S HS); apply (distribution_ext S (proj [X; Y])); [reflexivity|apply (po_dist _ _ _ H1)]|].
    split; [apply omega_plain, (po_plain _ _ _ H1)|]. split; [apply (omega_table S HS), (po_dist _ _ _ H2)|]. split; [apply (omega_table S HS), (po_dist _ _ _ H3)|].
    apply (omega_dist S HS).
  Qed.

  (** ** unoptimized *)
  Lemma plain_condition vars Z P PZ : NoDup (vars ++ Z) -> vars <> [] -> Z <> [] ->
    is_table S (map Z.of_nat (vars ++ Z)) (proj (vars ++ Z)) P -> is_table S (map Z.of_nat Z) (proj Z) PZ ->
    exists C, condition_on P PZ = Ok C /\ cond_table S (proj vars) (proj Z) C /\ (length vars <> 1%nat -> cond_plain C).
  Proof.
    intros HN Hv HZ HP HPZ.
    assert (Hinc : incl Z (vars ++ Z)) by (intros x Hx; apply in_app_iff; auto).
    assert (Eo : others (map Z.of_nat (vars ++ Z)) (map Z.of_nat Z) = map Z.of_nat vars).
    { rewrite others_proj. f_equal. apply filter_not_mem. intros v Hv1 Hv2. clear -HN Hv1 Hv2. induction vars as [|w vars IH]; [contradiction|].
      inversion HN; subst. destruct Hv1 as [-> | Hv1]; [apply H1, in_app_iff; auto|auto]. }
    assert (EZ : forall row, components (map Z.of_nat (vars ++ Z)) (map Z.of_nat Z) (proj (vars ++ Z) row) = proj Z row) by (intros; apply components_proj; assumption).
    assert (EX : forall row, components (map Z.of_nat (vars ++ Z)) (map Z.of_nat vars) (proj (vars ++ Z) row) = proj vars row) by (intros; apply components_proj; intros x Hx; apply in_app_iff; auto).
    destruct (table_condition S HS (map Z.of_nat (vars ++ Z)) (proj (vars ++ Z)) P (map Z.of_nat Z) PZ) as (C & E & HC).
    - assumption.
    - destruct HPZ as [T1 T2 T3 T4]. constructor; [assumption| | |assumption].
      + intros a _. rewrite EZ, map_length. apply proj_length.
      + apply (distribution_ext S (proj Z)); [intros; symmetry; apply EZ|assumption].
    - apply of_nat_NoDup. assumption.
    - rewrite map_length, app_length. destruct vars, Z; simpl; try congruence; lia.
    - destruct Z; [congruence|discriminate].
    - apply of_nat_incl. assumption.
    - exists C. split; [assumption|]. cbv zeta in HC. rewrite Eo in HC. split.
      + intros z. destruct (HC z) as (H1 & H2 & _). cbv zeta.
        assert (Epr : pr1 S (fun a => components (map Z.of_nat (vars ++ Z)) (map Z.of_nat Z) (proj (vars ++ Z) a)) z = pr1 S (proj Z) z) by (apply pr_ext; intros a _; rewrite EZ; reflexivity).
        rewrite Epr in H1, H2. split; [|exact H2]. intros Hz. eapply conditional_ext; [|apply H1, Hz]. intros a _. cbv beta. rewrite EX, EZ. auto.
      + intros Hl z k r Hin. destruct (HC z) as (_ & _ & H3). destruct (H3 _ _ Hin) as (Ek & El). rewrite map_length in El.
        rewrite Ek at 1. unfold as_key. destruct (leaves k) as [|x [|y l]]; [reflexivity|simpl in El; congruence|reflexivity].
  Qed.

  Lemma joint_pmf vs cols : cols <> [] -> flatten_variables vs = map (colvar D) cols ->
    exists J P, joint_variables vs = Ok J /\ new_pmf J = Ok P /\ is_table S (map Z.of_nat cols) (proj cols) P /\ variable_IDs P = Some (map Z.of_nat cols).
  Proof.
    intros Hne E. exists (Joint (map (colvar D) cols)).
    destruct (plain_pmf D HR (Joint (map (colvar D) cols)) cols) as (P & EP & HT & _ & HV); [split; [assumption|left; reflexivity]|].
    exists P. split; [apply of_cols_joint; assumption|auto].
  Qed.
  Lemma described_table cols P : NoDup cols -> is_table S (map Z.of_nat cols) (proj cols) P ->
    (variable_IDs P = Some (map Z.of_nat cols) \/ variable_IDs P = None) -> described P (cols, cols).
  Proof. intros HN HT HV. split; [eapply pmf_of_table; [eassumption|apply map_length]|]. split; [assumption|]. split; [left; reflexivity|assumption]. Qed.

  Lemma plain_tables_ok kind c X Y Z : NoDup (X :: Y :: Z) -> (forall v, In v (X :: Y :: Z) -> (v < ncols D)%nat) -> dcache_ok D c ->
    exists CXY CX CY PZ c', plain_tables D kind c X Y Z = Ok (CXY, CX, CY, PZ, c') /\ good X Y Z CXY CX CY PZ /\ dcache_ok D c' /\
      (kind = CachedStructuralDoF -> assoc list_eqb (frozenset (X :: Y :: Z)) c' <> None).
  Proof.
    intros HN Hr Hc. unfold plain_tables.
    assert (HX : get_variables D [X] = Ok (Simple (colvar D X))) by (cbn [get_variables]; rewrite get_variable_ok by auto with datatypes; reflexivity).
    assert (HY : get_variables D [Y] = Ok (Simple (colvar D Y))) by (cbn [get_variables]; rewrite get_variable_ok by auto with datatypes; reflexivity).
    rewrite HX, HY. cbn [bind].
    inversion HN as [|? ? NX HN']; subst. inversion HN' as [|? ? NY HNZ]; subst.
    assert (HXY : X <> Y) by (intros ->; apply NX; left; reflexivity).
    destruct Z as [|z0 Z0].
    - destruct (joint_pmf [Simple (colvar D X); Simple (colvar D Y)] [X; Y]) as (J & PXY & E1 & E2 & T1 & V1); [discriminate|reflexivity|].
      destruct (plain_pmf D HR (Simple (colvar D X)) [X]) as (PX & E3 & T3 & _ & V3); [split; [discriminate|right; eauto]|].
      destruct (plain_pmf D HR (Simple (colvar D Y)) [Y]) as (PY & E4 & T4 & _ & V4); [split; [discriminate|right; eauto]|].
      rewrite E1. cbn [bind]. rewrite E2. cbn [bind]. rewrite E3. cbn [bind]. rewrite E4. cbn [bind].
      destruct (set_context_ok kind c [PXY; PX; PY] [([X; Y], [X; Y]); ([X], [X]); ([Y], [Y])] Hc) as (c' & Ps' & E5 & Hc' & HPs & _ & Hin).
      { assert (N1 : forall v : nat, NoDup [v]) by (repeat constructor; simpl; tauto).
        constructor; [apply described_table; [constructor; [intros [|[]]; congruence|apply N1]|assumption|auto]|].
        constructor; [apply described_table; [apply N1|assumption|auto]|]. constructor; [apply described_table; [apply N1|assumption|auto]|constructor]. }
      rewrite E5. cbn [bind]. inversion HPs as [|P1 ? ? ? HP1 HPs2]; subst. inversion HPs2 as [|P2 ? ? ? HP2 HPs3]; subst. inversion HPs3 as [|P3 ? ? ? HP3 HPs4]; subst. inversion HPs4; subst.
      eexists _, _, _, _, _. split; [reflexivity|]. split; [apply good_empty; assumption|]. split; [assumption|].
      intros Hk. apply (Hin Hk PXY ([X; Y], [X; Y])); [reflexivity..|congruence|simpl; lia].
    - remember (z0 :: Z0) as Z eqn:EZ. assert (HZ : Z <> []) by (subst; discriminate).
      destruct (get_variables_ok D Z HZ) as (VZ & E0 & O0 & S0 & J0); [auto with datatypes|]. rewrite E0. cbn [bind].
      assert (Fz : forall vs ws, flatten_variables (vs ++ [VZ]) = ws ++ map (colvar D) Z <-> flatten_variables vs ++ map (colvar D) Z = ws ++ map (colvar D) Z).
      { intros vs ws. unfold flatten_variables at 1. rewrite flat_map_app. cbn [flat_map]. rewrite app_nil_r.
        replace (match VZ with Simple x => [x] | OmegaVar _ => [] | Joint l => l end) with (map (colvar D) Z); [reflexivity|]. symmetry. apply of_cols_parts in O0. exact O0. }
      destruct (joint_pmf [Simple (colvar D X); Simple (colvar D Y); VZ] ([X; Y] ++ Z)) as (J1 & PXYZ & E1 & E1' & T1 & V1); [discriminate|rewrite map_app; apply (Fz [Simple (colvar D X); Simple (colvar D Y)]); reflexivity|].
      destruct (joint_pmf [Simple (colvar D X); VZ] ([X] ++ Z)) as (J2 & PXZ & E2 & E2' & T2 & V2); [discriminate|rewrite map_app; apply (Fz [Simple (colvar D X)]); reflexivity|].
      destruct (joint_pmf [Simple (colvar D Y); VZ] ([Y] ++ Z)) as (J3 & PYZ & E3 & E3' & T3 & V3); [discriminate|rewrite map_app; apply (Fz [Simple (colvar D Y)]); reflexivity|].
      destruct (plain_pmf D HR VZ Z O0) as (PZ & E4 & T4 & _ & V4).
      assert (N1 : NoDup ([X; Y] ++ Z)) by exact HN.
      assert (N2 : NoDup ([X] ++ Z)) by (constructor; [intros H; apply NX; right; assumption|assumption]).
      assert (N3 : NoDup ([Y] ++ Z)) by exact HN'.
      destruct (plain_condition [X; Y] Z PXYZ PZ) as (CXY & F1 & G1 & H1); auto; [discriminate|].
      destruct (plain_condition [X] Z PXZ PZ) as (CX & F2 & G2 & _); auto; [discriminate|].
      destruct (plain_condition [Y] Z PYZ PZ) as (CY & F3 & G3 & _); auto; [discriminate|].
      destruct (set_context_ok kind c [PXYZ; PXZ; PYZ; PZ] [([X; Y] ++ Z, [X; Y] ++ Z); ([X] ++ Z, [X] ++ Z); ([Y] ++ Z, [Y] ++ Z); (Z, Z)] Hc) as (c' & Ps' & E5 & Hc' & HPs & _ & Hin).
      { constructor; [apply described_table; auto|]. constructor; [apply described_table; auto|]. constructor; [apply described_table; auto|].
        constructor; [apply described_table; auto|constructor]. rewrite V4. destruct VZ; auto. }
      assert (EM : match Z with [] => Err RuntimeError | _ :: _ => Ok tt end = Ok tt) by (subst Z; reflexivity).
      rewrite E1. cbn [bind]. rewrite E1'. cbn [bind]. rewrite E2. cbn [bind]. rewrite E2'. cbn [bind]. rewrite E3. cbn [bind]. rewrite E3'. cbn [bind]. rewrite E4. cbn [bind].
      rewrite F2. cbn [bind]. rewrite F3. cbn [bind]. rewrite F1. cbn [bind]. rewrite E5. cbn [bind].
      inversion HPs as [|P1 ? ? ? HP1 HPs2]; subst. inversion HPs2 as [|P2 ? ? ? HP2 HPs3]; subst. inversion HPs3 as [|P3 ? ? ? HP3 HPs4]; subst. inversion HPs4 as [|P4 ? ? ? HP4 HPs5]; subst. inversion HPs5; subst.
      eexists _, _, _, _, _. split; [reflexivity|]. split; [|split; [assumption|]].
      + exists (proj (z0 :: Z0)). split; [apply same_info_refl|]. split; [|split; [apply H1; discriminate|split; [assumption|split; [assumption|apply (po_dist _ _ _ HP4)]]]].
        exact G1.
      + intros Hk. apply (Hin Hk PXYZ ([X; Y] ++ z0 :: Z0, [X; Y] ++ z0 :: Z0)); [reflexivity..|congruence|simpl; lia].
  Qed.
End Impl.
