(** C17: conditional mutual information of a network or of a dataset. *)
From Coq Require Import Reals Lra.
From Verif Require Import Base AD_Model AD_Spec Key_Model Key_Spec Key_Proofs PMF_Model PMF_Spec Prob_Spec Info_Spec Table_Spec Prob_Proofs PMF_Proofs PMF_Data_Proofs Info_Proofs Table_Proofs
  SameInfo_Proofs MB_Model MB_Cache_Proofs GTest_Model GTest_Spec GTest_Tables_Proofs GTest_Impl_Proofs BN_Model BN_Spec BN_Order_Proofs BN_Table_Proofs BN_Final_Proofs BN_Partial_Proofs BN_Properties CMI_Model.
Open Scope nat_scope.

(** ** Specification *)
(** an outcome [t] of the network lists the value indices of the variables in order of their IDs;
    the values of the variables [ids] in this outcome: *)
Definition shown (ids : list nat) (t : list nat) : list Z := map (fun i => Z.of_nat (nth i t 0)) ids.
Definition network_cmi (ns : list node) (X Y : nat) (Zl : list nat) : R := cmi (network_space ns) (shown [X]) (shown [Y]) (shown Zl).

(** ** Proofs *)
Definition rv (ids : list nat) (t : list nat) : list Z := proj ids (map Z.of_nat t).
Lemma rv_shown ids t : rv ids t = shown ids t.
Proof. unfold rv, proj, shown. apply map_ext. intros i. change 0%Z with (Z.of_nat 0). apply map_nth. Qed.
Lemma components_rv ids cs t : incl cs ids -> components (map Z.of_nat ids) (map Z.of_nat cs) (rv ids t) = rv cs t.
Proof. apply components_proj. Qed.
Lemma rv_all t n : length t = n -> rv (seq 0 n) t = map Z.of_nat t.
Proof.
  intros H. unfold rv, proj. replace n with (length (map Z.of_nat t)) by (rewrite map_length; exact H). generalize (map Z.of_nat t). clear. intros l. apply (nth_ext _ _ 0%Z 0%Z); rewrite map_length, seq_length; [reflexivity|]. intros i Hi. rewrite (nth_indep _ 0%Z ((fun c => nth c l 0%Z) 0)) by (rewrite map_length, seq_length; exact Hi). rewrite (map_nth (fun c => nth c l 0%Z)), seq_nth by exact Hi. reflexivity.
Qed.
Lemma is_table_ext {A} (S : space A) ids T T' P : (forall a, In a (outcomes S) -> T a = T' a) -> is_table S ids T P -> is_table S ids T' P.
Proof.
  intros H [H1 H2 H3 H4]. constructor; [exact H1| |apply (distribution_ext S T); assumption|exact H4]. intros a Ha. rewrite <- (H a Ha). apply H2; exact Ha.
Qed.
Lemma strict_filter f l : StronglySorted lt l -> StronglySorted lt (filter f l).
Proof.
  induction 1 as [|x l H IH HF]; cbn [filter]; [constructor|]. destruct (f x); [|exact IH]. constructor; [exact IH|]. rewrite Forall_forall in *. intros y Hy. apply filter_In in Hy as (Hy & _). auto.
Qed.
Section Network.
  Variable ns : list node.
  Hypothesis Hf : fresh_network ns.
  Hypothesis Hst : stochastic ns.
  Variable b : bn.
  Hypothesis Hfin : exists fuel, finalize fuel (new_bn ns) = Ok b.
  Let S := network_space ns.
  Lemma net_prob : is_probability S.
  Proof.
    pose proof (fresh_IDs ns Hf) as HI. destruct Hf as (Hwf & Ht & Hun). destruct Hfin as (f0 & E). destruct (finalize_final ns Hwf Ht HI f0 b E) as (Hb & _). exact (space_probability ns Hwf Ht Hst _ (fin_order _ _ Hb)).
  Qed.
  Variables (iterate : list Z -> list Z) (fuel : nat).
  Hypothesis Hit : forall l, Permutation (iterate l) l.
  Hypothesis Hfuel : length ns + 1 < fuel.

  Lemma partial_table ids : NoDup ids -> (forall i, In i ids -> i < length ns) -> 2 <= length ids ->
    exists P, create_partial_joint_pmf iterate fuel b ids = Ok P /\ is_table S (map Z.of_nat (sort_nat ids)) (rv (sort_nat ids)) P.
  Proof.
    intros HN Hr H2. destruct (C20_partial_joint ns b Hf Hst Hfin iterate ids Hit Hr) with (fuel := fuel) as (P & E & HP); [|exact Hfuel|].
    - left. destruct ids as [|i [|j ids]]; cbn in H2; try lia. exists i, j. inversion HN as [|? ? N _]; subst. split; [left; reflexivity|]. split; [right; left; reflexivity|]. intros ->. apply N; left; reflexivity.
    - exists P. split; [exact E|]. rewrite nodup_fixed_point in HP by exact HN. unfold is_marginal in HP. apply (is_table_ext _ _ _ _ _) with (2 := HP). intros t Ht. cbn [network_space outcomes S] in Ht.
      rewrite <- (rv_all t (length ns)) by (rewrite (tuple_length ns t Ht), (len_names ns); reflexivity). apply components_rv. intros i Hi. apply (proj1 (sort_in _ _)) in Hi. apply in_seq. specialize (Hr i Hi). lia.
  Qed.
  Lemma sum_table ids P v : is_table S (map Z.of_nat ids) (rv ids) P -> NoDup ids -> 2 <= length ids -> In v ids ->
    exists P', sum_over P (Z.of_nat v) = Ok P' /\ is_table S (map Z.of_nat (filter (fun c => negb (mem c [v])) ids)) (rv (filter (fun c => negb (mem c [v])) ids)) P'.
  Proof.
    intros HT HN H2 Hv. destruct (table_sum_over S net_prob _ _ P (Z.of_nat v) HT) as (P' & E & HT'); [apply of_nat_NoDup; exact HN|rewrite map_length; exact H2|apply in_map; exact Hv|].
    exists P'. split; [exact E|]. change ([Z.of_nat v]) with (map Z.of_nat [v]) in HT'. rewrite others_proj in HT'. apply (is_table_ext _ _ _ _ _) with (2 := HT'). intros t _. apply components_rv. intros x Hx. apply filter_In in Hx. tauto.
  Qed.
  Lemma cond_tables ids zs vs P PZ : is_table S (map Z.of_nat ids) (rv ids) P -> is_table S (map Z.of_nat zs) (rv zs) PZ -> NoDup ids -> 2 <= length ids -> zs <> [] -> incl zs ids ->
    filter (fun c => negb (mem c zs)) ids = vs ->
    exists C, condition_on P PZ = Ok C /\ cond_table S (rv vs) (rv zs) C /\ (length vs <> 1 -> cond_plain C).
  Proof.
    intros HT HZ HN H2 Hne Hinc Ev.
    assert (EZ : forall t, components (map Z.of_nat ids) (map Z.of_nat zs) (rv ids t) = rv zs t) by (intros t; apply components_rv; exact Hinc).
    assert (EX : forall t, components (map Z.of_nat ids) (map Z.of_nat vs) (rv ids t) = rv vs t) by (intros t; apply components_rv; intros x Hx; rewrite <- Ev in Hx; apply filter_In in Hx; tauto).
    destruct (table_condition S net_prob (map Z.of_nat ids) (rv ids) P (map Z.of_nat zs) PZ) as (C & E & HC).
    - exact HT.
    - apply (is_table_ext _ _ _ _ _) with (2 := HZ). intros t _. symmetry. apply EZ.
    - apply of_nat_NoDup. exact HN.
    - rewrite map_length. exact H2.
    - destruct zs; [congruence|discriminate].
    - apply of_nat_incl. exact Hinc.
    - exists C. split; [exact E|]. cbv zeta in HC. rewrite others_proj, Ev in HC. split.
      + intros z. destruct (HC z) as (H1 & H3 & _). cbv zeta.
        assert (Epr : pr1 S (fun a => components (map Z.of_nat ids) (map Z.of_nat zs) (rv ids a)) z = pr1 S (rv zs) z) by (apply pr_ext; intros a _; rewrite EZ; reflexivity).
        rewrite Epr in H1, H3. split; [|exact H3]. intros Hz. eapply conditional_ext; [|apply H1, Hz]. intros a _. cbv beta. rewrite EX, EZ. auto.
      + intros Hl z k r Hin. destruct (HC z) as (_ & _ & H3). destruct (H3 _ _ Hin) as (Ek & El). rewrite map_length in El.
        rewrite Ek at 1. unfold as_key. destruct (leaves k) as [|x [|y l]]; [reflexivity|cbn in El; congruence|reflexivity].
  Qed.
  Lemma cmi_shown X Y Z Z' : (forall i, In i Z <-> In i Z') -> cmi S (rv X) (rv Y) (rv Z) = cmi S (shown X) (shown Y) (shown Z').
  Proof.
    intros H. apply same_cmi.
    - intros a c _ _. rewrite !rv_shown. reflexivity.
    - intros a c _ _. rewrite !rv_shown. reflexivity.
    - intros a c _ _. rewrite !rv_shown. unfold shown.
      assert (G : forall l, map (fun i => Z.of_nat (nth i a 0)) l = map (fun i => Z.of_nat (nth i c 0)) l <-> forall i, In i l -> nth i a 0 = nth i c 0).
      { induction l as [|i l IH]; cbn [map]; [split; [intros _ i []|reflexivity]|]. split.
        - intros E. injection E as E1 E2. intros j [<- |Hj]; [lia|apply IH; assumption].
        - intros Hall. f_equal; [f_equal; apply Hall; left; reflexivity|apply IH; intros j Hj; apply Hall; right; exact Hj]. }
      rewrite !G. split; intros Hall i Hi; apply Hall, H, Hi.
  Qed.
  Theorem network_ordered X Y Zl : X < Y -> NoDup (X :: Y :: Zl) -> (forall i, In i (X :: Y :: Zl) -> i < length ns) ->
    compute_from_bn iterate fuel b X Y Zl = Ok (network_cmi ns X Y Zl).
  Proof.
    intros HXY HN Hr. unfold compute_from_bn, make_pmfs_from_source_bn. inversion HN as [|? ? NX HN']; subst. inversion HN' as [|? ? NY HNZ]; subst.
    assert (NX' : ~ In X Zl) by (intros H; apply NX; right; exact H).
    destruct (partial_table (X :: Y :: Zl) HN Hr ltac:(cbn; lia)) as (P & EP & HP). set (R := sort_nat (X :: Y :: Zl)) in *.
    assert (HRN : NoDup R) by (apply (Permutation_NoDup (sort_perm _)); exact HN).
    assert (HRin : forall i, In i R <-> In i (X :: Y :: Zl)) by (intros i; apply sort_in).
    assert (HRl : length R = Datatypes.S (Datatypes.S (length Zl))) by (unfold R; rewrite <- (Permutation_length (sort_perm _)); reflexivity).
    assert (HRs : StronglySorted lt R) by (apply sort_strict; exact HN).
    destruct (sum_table R P Y HP HRN ltac:(lia)) as (PX & EX & HX); [apply HRin; right; left; reflexivity|].
    destruct (sum_table R P X HP HRN ltac:(lia)) as (PY & EY & HY); [apply HRin; left; reflexivity|].
    set (RX := filter (fun c => negb (mem c [Y])) R) in *. set (RY := filter (fun c => negb (mem c [X])) R) in *.
    assert (HRX : forall i, In i RX <-> i = X \/ In i Zl).
    { intros i. unfold RX. rewrite filter_In, HRin, negb_true_iff, mem_false. cbn. intuition (subst; auto; try contradiction; try lia; try congruence). }
    assert (HRY : forall i, In i RY <-> i = Y \/ In i Zl).
    { intros i. unfold RY. rewrite filter_In, HRin, negb_true_iff, mem_false. cbn. intuition (subst; auto; try contradiction; try lia; try congruence). }
    assert (HXs : StronglySorted lt RX) by (apply strict_filter; exact HRs). assert (HYs : StronglySorted lt RY) by (apply strict_filter; exact HRs).
    assert (HXN : NoDup RX) by (apply NoDup_filter; exact HRN). assert (HYN : NoDup RY) by (apply NoDup_filter; exact HRN).
    assert (Hb1 : base_valid BaseE) by exact Logic.I. assert (Hb2 : (0 <= base_factor BaseE)%R) by (cbn; lra).
    assert (Hlx : forall a, In a (outcomes S) -> length (rv [X] a) = 1) by reflexivity.
    destruct (list_eq_dec Nat.eq_dec Zl []) as [EZl|Hne]; [subst Zl|].
    - assert (E2 : R = [X; Y]) by (apply strict_unique; [exact HRs|repeat constructor; exact HXY|intros i; apply HRin]).
      assert (E3 : RX = [X]) by (apply strict_unique; [exact HXs|repeat constructor|intros i; rewrite HRX; cbn; intuition]).
      assert (E4 : RY = [Y]) by (apply strict_unique; [exact HYs|repeat constructor|intros i; rewrite HRY; cbn; intuition]).
      rewrite EP. cbn [bind]. rewrite EX. cbn [bind]. rewrite EY. cbn [bind cmi_of_tables].
      rewrite (proj2 (cmi_code_ok S (rv [X]) (rv [Y]) (fun _ => [1%Z]) 1 _ _ _ _ BaseE net_prob Hlx Hb1 Hb2
        (omega_table S net_prob (fun a => rv [X] a ++ rv [Y] a) P ltac:(rewrite E2 in HP; exact (table_dist _ _ _ _ HP)))
        (omega_plain P (proj1 (table_keys _ _ _ _ HP)))
        (omega_table S net_prob (rv [X]) PX ltac:(rewrite E3 in HX; exact (table_dist _ _ _ _ HX)))
        (omega_table S net_prob (rv [Y]) PY ltac:(rewrite E4 in HY; exact (table_dist _ _ _ _ HY)))
        (omega_dist S net_prob))).
      cbn [base_factor]. rewrite Rmult_1_r. f_equal. transitivity (cmi S (rv [X]) (rv [Y]) (rv [])); [|apply (cmi_shown [X] [Y] [] []); tauto]. apply same_cmi; [apply same_info_refl|apply same_info_refl|]. intros a c _ _. cbn. tauto.
    - assert (HlX : length RX = Datatypes.S (length Zl)).
      { assert (HP1 : Permutation RX (X :: Zl)); [|rewrite (Permutation_length HP1); reflexivity]. apply NoDup_Permutation; [exact HXN|constructor; assumption|]. intros i. rewrite HRX. cbn. intuition. }
      assert (HlY : length RY = Datatypes.S (length Zl)).
      { assert (HP1 : Permutation RY (Y :: Zl)); [|rewrite (Permutation_length HP1); reflexivity]. apply NoDup_Permutation; [exact HYN|constructor; assumption|]. intros i. rewrite HRY. cbn. intuition. }
      assert (Hlz : 1 <= length Zl) by (destruct Zl; [congruence|cbn; lia]).
      destruct (sum_table RX PX X HX HXN ltac:(lia)) as (PZ & EZ & HZ); [apply HRX; left; reflexivity|].
      set (RZ := filter (fun c => negb (mem c [X])) RX) in *.
      assert (HRZ : forall i, In i RZ <-> In i Zl).
      { intros i. unfold RZ. rewrite filter_In, HRX, negb_true_iff, mem_false. cbn. intuition (subst; auto; try contradiction; try lia; try congruence). }
      assert (HZne : RZ <> []) by (destruct Zl as [|z0 Zl0]; [congruence|]; intros E0; apply (in_nil (a := z0)); rewrite <- E0; apply HRZ; left; reflexivity).
      destruct (cond_tables R RZ [X; Y] P PZ HP HZ HRN ltac:(lia) HZne) as (CXY & ECXY & HCXY & HPl).
      { intros i Hi. apply HRZ in Hi. apply HRin. right; right; exact Hi. }
      { apply strict_unique; [apply strict_filter; exact HRs|repeat constructor; exact HXY|]. intros i. rewrite filter_In, negb_true_iff, mem_false, HRZ, HRin. cbn. intuition (subst; auto; try contradiction; try lia; try congruence). }
      destruct (cond_tables RX RZ [X] PX PZ HX HZ HXN ltac:(lia) HZne) as (CX & ECX & HCX & _).
      { intros i Hi. apply HRZ in Hi. apply HRX. right; exact Hi. }
      { apply strict_unique; [apply strict_filter; exact HXs|repeat constructor|]. intros i. rewrite filter_In, negb_true_iff, mem_false, HRZ, HRX. cbn. intuition (subst; auto; try contradiction; try lia; try congruence). }
      destruct (cond_tables RY RZ [Y] PY PZ HY HZ HYN ltac:(lia) HZne) as (CY & ECY & HCY & _).
      { intros i Hi. apply HRZ in Hi. apply HRY. right; exact Hi. }
      { apply strict_unique; [apply strict_filter; exact HYs|repeat constructor|]. intros i. rewrite filter_In, negb_true_iff, mem_false, HRZ, HRY. cbn. intuition (subst; auto; try contradiction; try lia; try congruence). }
      transitivity (cmi_of_tables (PXYZ <- create_partial_joint_pmf iterate fuel b (X :: Y :: Zl) ;; PXZ <- sum_over PXYZ (Z.of_nat Y) ;; PYZ <- sum_over PXYZ (Z.of_nat X) ;; PZ <- sum_over PXZ (Z.of_nat X) ;;
        CXY <- condition_on PXYZ PZ ;; CX <- condition_on PXZ PZ ;; CY <- condition_on PYZ PZ ;; Ok (CXY, CX, CY, PZ))); [destruct Zl; [congruence|reflexivity]|].
      rewrite EP. cbn [bind]. rewrite EX. cbn [bind]. rewrite EY. cbn [bind]. rewrite EZ. cbn [bind]. rewrite ECXY. cbn [bind]. rewrite ECX. cbn [bind]. rewrite ECY. cbn [bind].
      cbn [cmi_of_tables bind].
      rewrite (proj2 (cmi_code_ok S (rv [X]) (rv [Y]) (rv RZ) 1 CXY CX CY PZ BaseE net_prob Hlx Hb1 Hb2 HCXY (HPl ltac:(discriminate)) HCX HCY (table_dist _ _ _ _ HZ))).
      cbn [base_factor]. rewrite Rmult_1_r. f_equal. apply (cmi_shown [X] [Y] RZ Zl). exact HRZ.
  Qed.
End Network.

(** With X < Y (the IDs are in the order of the joint table) the value is I(X;Y|Z). *)
Theorem C17_network_cmi_in_ID_order : forall ns b, fresh_network ns -> stochastic ns -> (exists fuel, finalize fuel (new_bn ns) = Ok b) ->
  forall (iterate : list Z -> list Z), (forall l, Permutation (iterate l) l) ->
  forall X Y Zl, X < Y -> NoDup (X :: Y :: Zl) -> (forall i, In i (X :: Y :: Zl) -> i < length ns) ->
  forall fuel, length ns + 1 < fuel ->
  compute_from_bn iterate fuel b X Y Zl = Ok (network_cmi ns X Y Zl) /\ (0 <= network_cmi ns X Y Zl)%R /\
  (network_cmi ns X Y Zl = 0%R <-> cond_independent (network_space ns) (shown [X]) (shown [Y]) (shown Zl)).
Proof.
  intros ns b Hf Hst Hfin iterate Hit X Y Zl HXY HN Hr fuel Hfuel. split; [apply network_ordered; assumption|]. pose proof (net_prob ns Hf Hst b Hfin) as HS. split; [apply cmi_nonneg; exact HS|apply (cmi_zero_iff _ HS)].
Qed.
Print Assumptions C17_network_cmi_in_ID_order.
(** I(X;Y|Z) does not depend on the order of X and Y, nor on the order of Z ... *)
Theorem C17_cmi_symmetric : forall ns X Y Zl Zl', Permutation Zl Zl' -> network_cmi ns X Y Zl = network_cmi ns Y X Zl'.
Proof.
  intros ns X Y Zl Zl' HP. unfold network_cmi. rewrite cmi_sym. apply same_cmi; [apply same_info_refl|apply same_info_refl|]. intros a c _ _. unfold shown.
  assert (G : forall l, map (fun i => Z.of_nat (nth i a 0)) l = map (fun i => Z.of_nat (nth i c 0)) l <-> forall i, In i l -> nth i a 0 = nth i c 0).
  { induction l as [|i l IH]; cbn [map]; [split; [intros _ i []|reflexivity]|]. split.
    - intros E. injection E as E1 E2. intros j [<- |Hj]; [lia|apply IH; assumption].
    - intros Hall. f_equal; [f_equal; apply Hall; left; reflexivity|apply IH; intros j Hj; apply Hall; right; exact Hj]. }
  rewrite !G. split; intros Hall i Hi; apply Hall; [apply (Permutation_in _ (Permutation_sym HP))|apply (Permutation_in _ HP)]; exact Hi.
Qed.
(** ... but the computed value does: in this network variable 1 is a function of variable 0, and with
    the arguments in the order (1, 0) the calculator answers 0. *)
Definition m0 : node := {| nname := 0; nID := None; nvalues := [10; 11]; nparents := []; nprobs := [(None, [1/2; 1/2]%R)] |}.
Definition m1 : node := {| nname := 1; nID := None; nvalues := [10; 11; 12; 13]; nparents := [0];
  nprobs := [(Some [10], [0; 0; 1; 0]%R); (Some [11], [0; 0; 0; 1]%R)] |}.
Definition functional : list node := [m0; m1].
Lemma functional_ok : fresh_network functional /\ acyclic functional /\ stochastic functional.
Proof.
  assert (HW : well_formed functional).
  { split; [repeat constructor; cbn; intuition lia|]. intros p c (n & Hn & _ & Hp). cbn in Hn. destruct Hn as [<- |[<- |[]]]; cbn in Hp; [destruct Hp|]. destruct Hp as [<- |[]]. cbn; auto. }
  split; [split; [exact HW|split]|split].
  - intros n Hn. cbn in Hn. destruct Hn as [<- |[<- |[]]]; cbn [m0 m1 nvalues nparents nprobs map fst];
    (split; [discriminate|]; split; [repeat constructor; cbn; intuition lia|]; split; [repeat constructor; cbn; intuition lia|];
     split; [repeat constructor; cbn; intuition discriminate|]; split).
    + intros vals H. inversion H; subst. eexists. split; [left; reflexivity|reflexivity].
    + intros k row [E|[]]; injection E as <- <-. exists []. split; [constructor|reflexivity].
    + intros vals H. inversion H as [|? v ? l H1 H2]; subst. inversion H2; subst. cbn in H1. destruct H1 as [<- |[<- |[]]]; eexists; (split; [pick|reflexivity]).
    + intros k row [E|[E|[]]]; injection E as <- <-; eexists; (split; [|reflexivity]); repeat apply Forall2_cons; try apply Forall2_nil; cbn; auto.
  - intros n Hn. cbn in Hn. destruct Hn as [<- |[<- |[]]]; reflexivity.
  - apply (topological_acyclic functional HW [0; 1]). split; [reflexivity|].
    intros l1 v l2 E p (n & Hn & En & Hp). cbn in Hn. destruct Hn as [<- |[<- |[]]]; cbn in En, Hp; [destruct Hp|]. destruct Hp as [<- |[]]. subst v.
    destruct l1 as [|a [|c l1]]; cbn in E; injection E as; subst; [discriminate|left; reflexivity|destruct l1; discriminate].
  - intros n k row Hn Hin. cbn in Hn. destruct Hn as [<- |[<- |[]]]; cbn in Hin; intuition; match goal with H : (_, _) = (_, _) |- _ => injection H as <- <- end;
    cbn in *; intuition (subst; lra).
Qed.
Lemma functional_support t : In t (tuples functional) -> (0 < weight (network_space functional) t)%R -> t = [0; 2] \/ t = [1; 3].
Proof.
  intros Ht Hw. cbn in Ht. repeat (destruct Ht as [<- |Ht]; [first [left; reflexivity | right; reflexivity | exfalso; revert Hw; unfold network_space, joint; cbn; lra]|]). destruct Ht.
Qed.
Theorem C17_reversed_order_refuted : exists ns b, fresh_network ns /\ acyclic ns /\ stochastic ns /\ finalize 2 (new_bn ns) = Ok b /\
  (forall iterate fuel, (forall l, Permutation (iterate l) l) -> length ns + 1 < fuel ->
     compute_from_bn iterate fuel b 0 1 [] = Ok (network_cmi ns 0 1 []) /\ compute_from_bn iterate fuel b 1 0 [] = Ok 0%R) /\
  (0 < network_cmi ns 1 0 [])%R.
Proof.
  exists functional. destruct functional_ok as (Hf & Hac & Hst). destruct (fresh_finalize functional Hf Hac) as (b & Hb & Efin). exists b. split; [exact Hf|]. split; [exact Hac|]. split; [exact Hst|]. split; [apply Efin; cbn; lia|].
  assert (Hfin : exists fuel, finalize fuel (new_bn functional) = Ok b) by (exists 2; apply Efin; cbn; lia).
  pose proof (net_prob functional Hf Hst b Hfin) as HS. set (S := network_space functional) in *. split.
  - intros iterate fuel Hit Hl. split.
    { apply network_ordered; try assumption; [lia|repeat constructor; cbn; intuition lia|]. intros i Hi. cbn in Hi |- *. intuition lia. }
    unfold compute_from_bn, make_pmfs_from_source_bn.
    destruct (partial_table functional Hf Hst b Hfin iterate fuel Hit Hl [1; 0]) as (P & EP & HP); [repeat constructor; cbn; intuition lia|intros i Hi; cbn in Hi |- *; intuition lia|cbn; lia|].
    change (sort_nat [1; 0]) with [0; 1] in HP.
    destruct (sum_table functional Hf Hst b Hfin [0; 1] P 0 HP) as (PX & EX & HX); [repeat constructor; cbn; intuition lia|cbn; lia|cbn; auto|]. change (filter _ _) with [1] in HX.
    destruct (sum_table functional Hf Hst b Hfin [0; 1] P 1 HP) as (PY & EY & HY); [repeat constructor; cbn; intuition lia|cbn; lia|cbn; auto|]. change (filter _ _) with [0] in HY.
    rewrite EP. cbn [bind]. change (Z.of_nat 0) with (Z.of_nat 0) in EX. rewrite EX. cbn [bind]. rewrite EY. cbn [bind cmi_of_tables]. unfold conditional_mutual_information. rewrite <- mi_omega.
    assert (E0 : mutual_information P PX PY BaseE = Ok 0%R); [|rewrite E0; cbn [bind]; rewrite Rabs_R0; reflexivity].
    unfold mutual_information. cbn [check_base bind]. rewrite (foldM_sum _ (fun _ => 0%R)); [rewrite SumOf_zero by reflexivity; f_equal; lra|]. intros [kx px] Hx acc. cbn [fst snd].
    rewrite (foldM_sum _ (fun _ => 0%R)); [rewrite SumOf_zero by reflexivity; reflexivity|]. intros [ky py] Hy acc'. cbn [fst snd].
    assert (Epx : px = pr1 S (rv [1]) (leaves kx)) by (apply (proj1 (proj2 (table_dist _ _ _ _ HX)) _ _ Hx)).
    assert (Epy : py = pr1 S (rv [0]) (leaves ky)) by (apply (proj1 (proj2 (table_dist _ _ _ _ HY)) _ _ Hy)).
    assert (Epxy : pmf_p P [kx; ky] = pr1 S (rv [0; 1]) (leaves kx ++ leaves ky)) by (rewrite (table_p S HS _ _ _ _ HP); f_equal; unfold leaves_list; cbn [flat_map]; rewrite app_nil_r; reflexivity).
    assert (Hor : px = 0%R \/ py = 0%R \/ pmf_p P [kx; ky] = 0%R).
    { destruct (Req_dec px 0) as [|Nx]; [auto|]. destruct (Req_dec py 0) as [|Ny]; [auto|]. destruct (Req_dec (pmf_p P [kx; ky]) 0) as [|Nxy]; [auto|exfalso].
      assert (Hpos : forall X v, pr1 S X v <> 0%R -> exists t, (t = [0; 2] \/ t = [1; 3]) /\ X t = v).
      { intros X v Hne. assert (H0 : (0 < pr1 S X v)%R) by (pose proof (pr_nonneg S (proj1 HS) (fun a => eqv (X a) v)) as Hnn; unfold pr1 in *; lra).
        apply (pr_witness S (proj1 HS)) in H0 as (t & Ht & Hw & He). exists t. split; [apply functional_support; assumption|apply eqv_true; exact He]. }
      rewrite Epx in Nx. rewrite Epy in Ny. rewrite Epxy in Nxy. apply Hpos in Nx as (t1 & H1 & E1), Ny as (t2 & H2 & E2), Nxy as (t3 & H3 & E3). rewrite <- E1, <- E2 in E3.
      destruct H1 as [-> | ->], H2 as [-> | ->], H3 as [-> | ->]; discriminate E3. }
    unfold is_zero. destruct (Req_EM_T (pmf_p P [kx; ky]) 0) as [E1|N1]; cbn [orb]; [f_equal; lra|]. destruct (Req_EM_T px 0) as [E2|N2]; cbn [orb]; [f_equal; lra|]. destruct (Req_EM_T py 0) as [E3|N3]; [f_equal; lra|]. tauto.
  - pose proof (cmi_nonneg S HS (shown [1]) (shown [0]) (shown [])) as Hnn. unfold network_cmi. fold S. destruct Hnn as [Hnn|E]; [exact Hnn|exfalso]. symmetry in E. apply (cmi_zero_iff S HS) in E.
    specialize (E [2%Z] [1%Z] []). revert E. unfold pr3, pr2, pr1, pr, S, network_space, joint. cbn. lra.
Qed.

(** ** From a dataset: any order of the arguments *)
Theorem C17_dataset_cmi : forall D, rows D <> [] -> forall X Y Zl, NoDup (X :: Y :: Zl) -> (forall c, In c (X :: Y :: Zl) -> c < ncols D) ->
  compute_from_dataset D X Y Zl = Ok (cmi (data_space D) (proj [X]) (proj [Y]) (proj Zl)).
Proof.
  intros D HR X Y Zl HN Hr.
  assert (Ht : make_pmfs_from_datasetmatrix D X Y Zl = '(CXY, CX, CY, PZ, _) <- plain_tables D UnadjustedDoF [] X Y Zl ;; Ok (CXY, CX, CY, PZ)).
  { unfold make_pmfs_from_datasetmatrix, plain_tables. change (get_variables D [X]) with (v <- get_variable D X ;; Ok (Simple v)). change (get_variables D [Y]) with (v <- get_variable D Y ;; Ok (Simple v)). destruct (get_variable D X) as [VX|e]; [|reflexivity]. cbn [bind]. destruct (get_variable D Y) as [VY|e]; [|reflexivity]. cbn [bind].
    destruct Zl as [|z Zl].
    - destruct (joint_variables [Simple VX; Simple VY]) as [XY|]; [|reflexivity]. cbn [bind]. destruct (new_pmf XY); [|reflexivity]. cbn [bind]. destruct (new_pmf (Simple VX)); [|reflexivity]. cbn [bind]. destruct (new_pmf (Simple VY)); reflexivity.
    - destruct (get_variables D (z :: Zl)) as [VZ|]; [|reflexivity]. cbn [bind].
      destruct (joint_variables [Simple VX; Simple VY; VZ]) as [XYZ|]; [|reflexivity]. cbn [bind]. destruct (new_pmf XYZ) as [PXYZ|]; [|reflexivity]. cbn [bind].
      destruct (joint_variables [Simple VX; VZ]) as [XZ|]; [|reflexivity]. cbn [bind]. destruct (new_pmf XZ) as [PXZ|]; [|reflexivity]. cbn [bind].
      destruct (joint_variables [Simple VY; VZ]) as [YZ|]; [|reflexivity]. cbn [bind]. destruct (new_pmf YZ) as [PYZ|]; [|reflexivity]. cbn [bind]. destruct (new_pmf VZ) as [PZ|]; [|reflexivity]. cbn [bind].
      destruct (condition_on PXZ PZ); [|reflexivity]. cbn [bind]. destruct (condition_on PYZ PZ); [|reflexivity]. cbn [bind]. destruct (condition_on PXYZ PZ); reflexivity. }
  unfold compute_from_dataset. rewrite Ht. clear Ht. 
  destruct (plain_tables_ok D HR UnadjustedDoF [] X Y Zl HN Hr) as (CXY & CX & CY & PZ & c' & E & (zrv & Hz & H1 & H2 & H3 & H4 & H5) & _); [|].
  { intros X' Y' Z' _ H. exfalso. apply H. reflexivity. }
  rewrite E. cbn [bind cmi_of_tables]. assert (HS : is_probability (data_space D)) by (apply uniform_probability; exact HR).
  rewrite (proj2 (cmi_code_ok (data_space D) (proj [X]) (proj [Y]) zrv 1 CXY CX CY PZ BaseE HS (fun _ _ => eq_refl) Logic.I ltac:(cbn; lra) H1 H2 H3 H4 H5)).
  cbn [base_factor]. rewrite Rmult_1_r. f_equal. apply same_cmi; [apply same_info_refl|apply same_info_refl|exact Hz].
Qed.
Print Assumptions C17_dataset_cmi.
Example C17_nonvacuous : fresh_network sprinkler /\ stochastic sprinkler /\ (exists fuel b, finalize fuel (new_bn sprinkler) = Ok b) /\ NoDup [0; 1; 2] /\ (forall i, In i [0; 1; 2] -> i < length sprinkler).
Proof.
  destruct sprinkler_fresh as (Hf & Hac & Hst). split; [exact Hf|]. split; [exact Hst|]. split; [destruct (fresh_finalize sprinkler Hf Hac) as (b & _ & E); exists 3, b; apply E; cbn; lia|].
  split; [repeat constructor; cbn; intuition lia|]. intros i Hi. cbn in Hi |- *. intuition lia.
Qed.
