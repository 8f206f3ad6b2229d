(** mutual_information and conditional_mutual_information compute the textbook quantities. *)
From Coq Require Import Reals Lra.
From Verif Require Import Base Key_Model Key_Spec Key_Proofs PMF_Model Prob_Spec Info_Spec Prob_Proofs PMF_Proofs PMF_Cond_Proofs.
Open Scope R_scope.

Lemma foldM_sum {A} (F : R -> A -> res R) (t : A -> R) l : (forall x, In x l -> forall acc, F acc x = Ok (acc + t x)) ->
  forall acc, foldM F l acc = Ok (acc + SumOf t l).
Proof.
  induction l as [|x l IH]; intros H acc; simpl; [rewrite SumOf_nil; f_equal; lra|]. rewrite H by (simpl; auto). simpl.
  rewrite IH by (intros; apply H; simpl; auto). rewrite SumOf_cons. f_equal. lra.
Qed.

Lemma log_fun_ok b x : base_valid b -> 0 < x -> log_fun b x = Ok (ln x * base_factor b).
Proof.
  intros Hb Hx. assert (Hm : forall y, 0 < y -> math_log y = Ok (ln y)) by (intros y Hy; unfold math_log; destruct (Rlt_dec 0 y); [reflexivity|contradiction]).
  destruct b as [| | |c|]; simpl in *; rewrite ?(Hm x Hx); simpl; try contradiction; try (f_equal; lra).
  destruct Hb as (Hc & Hc1). rewrite (Hm c Hc). simpl. destruct (Req_EM_T (ln c) 0) as [E|E]; [|reflexivity].
  exfalso. apply Hc1. rewrite <- (exp_ln c Hc), E, exp_0. reflexivity.
Qed.

Lemma check_base_ok b : base_valid b -> check_base b = Ok tt.
Proof. destruct b; intros H; try reflexivity. destruct H. Qed.
Lemma log_fun_bad b e x : invalid_base b e -> 0 < x -> log_fun b x = Err e.
Proof.
  intros H Hx. destruct b; cbn [invalid_base] in H; try contradiction; cbn [log_fun].
  - unfold math_log at 1. destruct (Rlt_dec 0 x); [|contradiction]. cbn [bind]. destruct H as [(Hc & ->) | (-> & ->)].
    + unfold math_log. destruct (Rlt_dec 0 b); [lra|reflexivity].
    + unfold math_log. destruct (Rlt_dec 0 1); [|lra]. cbn [bind]. rewrite ln_1. destruct (Req_EM_T 0 0); [reflexivity|contradiction].
  - subst e. reflexivity.
Qed.
Lemma foldM_bad {A} (F : R -> A -> res R) e l : (forall x, In x l -> forall acc, (exists r, F acc x = Ok r) \/ F acc x = Err e) ->
  forall acc, (exists r, foldM F l acc = Ok r) \/ foldM F l acc = Err e.
Proof.
  induction l as [|x l IH]; intros H acc; cbn [foldM]; [eauto|].
  destruct (H x (or_introl eq_refl) acc) as [(r & ->) | ->]; cbn [bind]; [apply IH; intros y Hy; apply H; right; assumption|right; reflexivity].
Qed.
Lemma foldM_bad_at {A} (F : R -> A -> res R) e l : (forall x, In x l -> forall acc, (exists r, F acc x = Ok r) \/ F acc x = Err e) ->
  (exists x, In x l /\ forall acc, F acc x = Err e) -> forall acc, foldM F l acc = Err e.
Proof.
  induction l as [|x l IH]; intros H (y & Hy & Hb) acc; [destruct Hy|]. cbn [foldM].
  destruct Hy as [-> |Hy]; [rewrite Hb; reflexivity|].
  destruct (H x (or_introl eq_refl) acc) as [(r & ->) | ->]; cbn [bind]; [|reflexivity].
  apply IH; [intros z Hz; apply H; right; assumption|eauto].
Qed.

Lemma given_norm C k : given C [k] = given C [as_key (leaves k)].
Proof. rewrite !given_table. unfold leaves_list. simpl. rewrite !app_nil_r, leaves_as_key. reflexivity. Qed.

Section CMI.
  Context {A : Type} (S : space A).
  Hypothesis Hpos : forall a, In a (outcomes S) -> 0 <= weight S a.
  Variables X Y Z : A -> list BinNums.Z.
  Variable lx : nat.
  Hypothesis Hlx : forall a, In a (outcomes S) -> length (X a) = lx.

  Lemma cond_lookup W z (t : pmf) args : pr1 S Z z <> 0 -> conditional_distribution S W Z z (probabilities t) -> plain_keys (probabilities t) ->
    pmf_p t args = pr2 S W (leaves_list args) Z z / pr1 S Z z.
  Proof.
    intros Hz (HN & Hr & Hc) Hp. unfold pmf_p. rewrite process_key. destruct (assoc pyobj_eqb (as_key (leaves_list args)) (probabilities t)) as [r|] eqn:E.
    - apply kassoc_In in E. rewrite (Hr _ _ E), leaves_as_key. reflexivity.
    - apply kassoc_None in E. destruct (Req_dec (pr2 S W (leaves_list args) Z z) 0) as [E0|E0]; [rewrite E0; unfold Rdiv; ring|]. exfalso. apply E.
      destruct (Hc _ E0) as (k & r & Hin & Hk). rewrite <- Hk, <- (Hp _ _ Hin). apply (in_map fst) in Hin. exact Hin.
  Qed.

  Let L x y z := ln (pr3 S X x Y y Z z * pr1 S Z z / (pr2 S X x Z z * pr2 S Y y Z z)).

  Lemma is_zero_true r : is_zero r = true <-> r = 0.
  Proof. unfold is_zero. destruct (Req_EM_T r 0); split; intros; try assumption; try reflexivity; try discriminate; contradiction. Qed.
  Lemma is_zero_false r : is_zero r = false <-> r <> 0.
  Proof. unfold is_zero. destruct (Req_EM_T r 0); split; intros; try assumption; try reflexivity; try discriminate; contradiction. Qed.

  (** one innermost step of the loop *)
  Lemma cmi_step CXY kz kx rx ky ry b pz : base_valid b ->
    cond_table S (fun a => X a ++ Y a) Z CXY -> cond_plain CXY ->
    pz = pr1 S Z (leaves kz) -> 0 < pz -> rx = pr2 S X (leaves kx) Z (leaves kz) / pz -> ry = pr2 S Y (leaves ky) Z (leaves kz) / pz -> forall acc,
    (let pxycz := pmf_p (given CXY [kz]) [kx; ky] in
     if (is_zero pxycz || is_zero rx || is_zero ry)%bool then Ok acc
     else l <- log_fun b (pxycz / (rx * ry));; Ok (acc + pz * pxycz * l)) =
    Ok (acc + base_factor b * (pr3 S X (leaves kx) Y (leaves ky) Z (leaves kz) * L (leaves kx) (leaves ky) (leaves kz))).
  Proof.
    intros Hb HC Hp Epz Hpz Erx Ery acc. cbv zeta. rewrite given_norm. set (x := leaves kx) in *. set (y := leaves ky) in *. set (z := leaves kz) in *.
    assert (Hz : pr1 S Z z <> 0) by lra.
    rewrite (cond_lookup _ z (given CXY [as_key z]) _ Hz (proj1 (HC z) Hz) (Hp z)). unfold leaves_list. simpl flat_map. rewrite app_nil_r. fold x y. rewrite <- Epz.
    pose proof (pr3_le_xz S Hpos X x Y y Z z) as H1. pose proof (pr3_le_yz S Hpos X x Y y Z z) as H2. pose proof (pr3_nonneg S Hpos X x Y y Z z) as H3.
    assert (Hcase : forall p2, 0 <= p2 -> is_zero (p2 / pz) = true -> p2 = 0).
    { intros p2 _ E. apply is_zero_true in E. apply (f_equal (fun r => r * pz)) in E. unfold Rdiv in E. rewrite Rmult_assoc, Rinv_l in E by lra. lra. }
    destruct (is_zero rx) eqn:E1; [rewrite orb_true_r; cbn [orb]; rewrite Erx in E1; apply Hcase in E1; [|apply pr2_nonneg; assumption]; rewrite E1 in H1; replace (pr3 S X x Y y Z z) with 0 by lra; f_equal; ring|].
    destruct (is_zero ry) eqn:E2; [rewrite orb_true_r; rewrite Ery in E2; apply Hcase in E2; [|apply pr2_nonneg; assumption]; rewrite E2 in H2; replace (pr3 S X x Y y Z z) with 0 by lra; f_equal; ring|].
    rewrite !orb_false_r.
    assert (Hrx : pr2 S X x Z z <> 0) by (intros E; apply is_zero_false in E1; apply E1; rewrite Erx, E; unfold Rdiv; ring).
    assert (Hry : pr2 S Y y Z z <> 0) by (intros E; apply is_zero_false in E2; apply E2; rewrite Ery, E; unfold Rdiv; ring).
    pose proof (pr2_nonneg S Hpos X x Z z) as G1. pose proof (pr2_nonneg S Hpos Y y Z z) as G2.
    assert (Hlen : length x = lx).
    { assert (G : 0 < pr2 S X x Z z) by lra. apply pr_witness in G as (a & Ha & _ & E); [|assumption]. apply andb_true_iff in E as (E & _). apply eqv_true in E. rewrite <- E. auto. }
    rewrite (pr2_app S X Y Z lx x y z Hlx Hlen). destruct (is_zero (pr3 S X x Y y Z z / pz)) eqn:E3.
    - apply Hcase in E3; [|assumption]. rewrite E3. f_equal. ring.
    - assert (G3 : 0 < pr3 S X x Y y Z z) by (apply is_zero_false in E3; destruct H3 as [|H3]; [assumption|]; exfalso; apply E3; rewrite <- H3; unfold Rdiv; ring).
      rewrite log_fun_ok; [|assumption|].
      + cbn [bind]. f_equal. f_equal. unfold L. rewrite <- Epz, Erx, Ery.
        replace (pr3 S X x Y y Z z / pz / (pr2 S X x Z z / pz * (pr2 S Y y Z z / pz))) with (pr3 S X x Y y Z z * pz / (pr2 S X x Z z * pr2 S Y y Z z)) by (field; repeat split; lra).
        field. lra.
      + rewrite Erx, Ery. assert (0 < / pz) by (apply Rinv_0_lt_compat; assumption).
        apply Rdiv_lt_0_compat; [apply Rmult_lt_0_compat; assumption|]. apply Rmult_lt_0_compat; apply Rmult_lt_0_compat; lra.
  Qed.

  Theorem cmi_sum_ok CXY CX CY PZ b : base_valid b ->
    cond_table S (fun a => X a ++ Y a) Z CXY -> cond_plain CXY -> cond_table S X Z CX -> cond_table S Y Z CY ->
    distribution S Z (probabilities PZ) ->
    cmi_sum CXY CX CY PZ b = Ok (cmi S X Y Z * base_factor b).
  Proof.
    intros Hb HC Hp HX HY HZ. unfold cmi_sum. rewrite (check_base_ok b Hb). cbn [bind].
    pose (T := fun kz kx ky : pyobj => base_factor b * (pr3 S X (leaves kx) Y (leaves ky) Z (leaves kz) * L (leaves kx) (leaves ky) (leaves kz))).
    pose (tx := fun kz => probabilities (given CX [kz])). pose (ty := fun kz => probabilities (given CY [kz])).
    rewrite (foldM_sum _ (fun zp => SumOf (fun xp => SumOf (fun yp => T (fst zp) (fst xp) (fst yp)) (ty (fst zp))) (tx (fst zp)))).
    - rewrite Rplus_0_l. f_equal.
      (* exchange the sums *)
      rewrite (SumOf_ext _ (fun zp => SumOf (fun a => weight S a * (if eqv (Z a) (leaves (fst zp)) then base_factor b * L (X a) (Y a) (Z a) else 0)) (outcomes S))).
      + rewrite SumOf_swap. unfold cmi. change (Sum (map ?f ?l)) with (SumOf f l). rewrite <- SumOf_scal_r. apply SumOf_ext. intros a Ha.
        rewrite SumOf_scal. pose proof (Hpos a Ha) as Hw. destruct (Req_dec (weight S a) 0) as [E|E]; [rewrite E; ring|].
        destruct (proj2 (proj2 HZ) (Z a)) as (k & r & Hin & Hk); [assert (0 < pr1 S Z (Z a)) by (apply pr1_at; [assumption|assumption|lra]); lra|].
        rewrite (SumOf_pick (fun zp : pyobj * R => leaves (fst zp)) (fun _ => base_factor b * L (X a) (Y a) (Z a)) _ (Z a) (k, r) (proj1 HZ) Hin Hk). unfold L. ring.
      + intros [kz pz] Hin. cbn [fst]. pose proof (proj1 (proj2 HZ) _ _ Hin) as Epz. unfold tx, ty. rewrite !(given_norm _ kz). set (z := leaves kz) in *.
        destruct (Req_dec (pr1 S Z z) 0) as [E0|E0].
        * rewrite (proj2 (HX z) E0), SumOf_nil. symmetry. apply SumOf_zero. intros a Ha. destruct (eqv (Z a) z) eqn:E; [|ring]. apply eqv_true in E.
          pose proof (Hpos a Ha) as Hw. destruct (Req_dec (weight S a) 0) as [E1|E1]; [rewrite E1; ring|].
          assert (0 < pr1 S Z (Z a)) by (apply pr1_at; [assumption|assumption|lra]). rewrite E in H. lra.
        * destruct (proj1 (HX z) E0) as (HNx & Hrx & Hcx). destruct (proj1 (HY z) E0) as (HNy & Hry & Hcy).
          rewrite (SumOf_ext _ (fun xp => SumOf (fun a => weight S a * (if (eqv (X a) (leaves (fst xp)) && eqv (Z a) z)%bool then base_factor b * L (X a) (Y a) (Z a) else 0)) (outcomes S))).
          -- rewrite SumOf_swap. apply SumOf_ext. intros a Ha. rewrite SumOf_scal. pose proof (Hpos a Ha) as Hw. destruct (Req_dec (weight S a) 0) as [E1|E1]; [rewrite E1; ring|]. f_equal.
             destruct (eqv (Z a) z) eqn:E; [|apply SumOf_zero; intros; rewrite andb_false_r; reflexivity]. pose proof E as E'. apply eqv_true in E'.
             destruct (Hcx (X a)) as (k & r & Hk & Ek); [rewrite <- E'; assert (0 < pr2 S X (X a) Z (Z a)) by (apply pr2_at; [assumption|assumption|lra]); lra|].
             rewrite (SumOf_ext _ (fun xp => if eqv (X a) (leaves (fst xp)) then (fun _ => base_factor b * L (X a) (Y a) (Z a)) xp else 0)) by (intros; rewrite andb_true_r; reflexivity).
             apply (SumOf_pick (fun xp : pyobj * R => leaves (fst xp)) (fun _ => base_factor b * L (X a) (Y a) (Z a)) _ (X a) (k, r)); assumption.
          -- intros [kx rx] Hx. cbn [fst]. set (x := leaves kx).
             rewrite (SumOf_ext _ (fun yp => pr S (fun a => (eqv (X a) x && eqv (Z a) z) && eqv (Y a) (leaves (fst yp)))%bool * (base_factor b * L x (leaves (fst yp)) z))).
             2:{ intros [ky ry] Hy. cbn [fst]. unfold T. rewrite <- Rmult_assoc, (Rmult_comm (base_factor b)), Rmult_assoc. f_equal. apply pr_ext. intros a _. fold x z.
                 destruct (eqv (X a) x), (eqv (Y a) (leaves ky)), (eqv (Z a) z); reflexivity. }
             rewrite (pr_partition S Y (fun a => eqv (X a) x && eqv (Z a) z)%bool (fun yp : pyobj * R => leaves (fst yp)) (fun yp => base_factor b * L x (leaves (fst yp)) z) _ HNy).
             apply SumOf_ext. intros a Ha. pose proof (Hpos a Ha) as Hw. destruct (Req_dec (weight S a) 0) as [E1|E1]; [rewrite E1; ring|]. f_equal.
             destruct (eqv (X a) x && eqv (Z a) z)%bool eqn:E; [|reflexivity]. apply andb_true_iff in E as (Ex & Ez). apply eqv_true in Ex, Ez.
             destruct (Hcy (Y a)) as (k & r & Hk & Ek); [rewrite <- Ez; assert (0 < pr2 S Y (Y a) Z (Z a)) by (apply pr2_at; [assumption|assumption|lra]); lra|].
             rewrite (SumOf_pick (fun yp : pyobj * R => leaves (fst yp)) (fun yp => base_factor b * L x (leaves (fst yp)) z) _ (Y a) (k, r) HNy Hk Ek).
             cbn [fst]. rewrite Ek, Ex, Ez. reflexivity.
    - intros [kz pz] Hin acc. cbn [fst snd]. pose proof (proj1 (proj2 HZ) _ _ Hin) as Epz. unfold tx, ty.
      destruct (Req_dec pz 0) as [E0|E0].
      + rewrite !(given_norm _ kz). rewrite (proj2 (HX (leaves kz))) by congruence. simpl. rewrite SumOf_nil. f_equal. lra.
      + assert (Hz : 0 < pz) by (pose proof (pr1_nonneg S Hpos Z (leaves kz)); lra). assert (Hz' : pr1 S Z (leaves kz) <> 0) by lra.
        rewrite (foldM_sum _ (fun xp => SumOf (fun yp => T kz (fst xp) (fst yp)) (ty kz))); [reflexivity|].
        intros [kx rx] Hx acc1. cbn [fst snd]. rewrite (foldM_sum _ (fun yp => T kz kx (fst yp))); [reflexivity|].
        intros [ky ry] Hy acc2. cbn [fst snd]. rewrite given_norm in Hx, Hy.
        apply (cmi_step CXY kz kx rx ky ry b pz Hb HC Hp Epz Hz).
        * rewrite Epz. apply (proj1 (proj2 (proj1 (HX _) Hz')) _ _ Hx).
        * rewrite Epz. apply (proj1 (proj2 (proj1 (HY _) Hz')) _ _ Hy).
  Qed.

  Theorem cmi_sum_bad CXY CX CY PZ b e : invalid_base b e -> (exists a, In a (outcomes S) /\ 0 < weight S a) ->
    cond_table S (fun a => X a ++ Y a) Z CXY -> cond_plain CXY -> cond_table S X Z CX -> cond_table S Y Z CY ->
    distribution S Z (probabilities PZ) ->
    cmi_sum CXY CX CY PZ b = Err e.
  Proof.
    intros Hb (a & Ha & Hw) HC Hp HX HY HZ. unfold cmi_sum.
    destruct (check_base b) as [[]|e'] eqn:Ec; [|destruct b; cbn in *; try discriminate; congruence]. cbn [bind].
    set (step3 := fun (zp xp : pyobj * R) (acc : R) (yp : pyobj * R) => let pxycz := pmf_p (given CXY [fst zp]) [fst xp; fst yp] in
        if (is_zero pxycz || is_zero (snd xp) || is_zero (snd yp))%bool then Ok acc
        else l <- log_fun b (pxycz / (snd xp * snd yp));; Ok (acc + snd zp * pxycz * l)).
    (* each step either adds a finite term or fails with e *)
    assert (Hstep : forall zp, In zp (probabilities PZ) -> forall xp, In xp (probabilities (given CX [fst zp])) -> forall yp, In yp (probabilities (given CY [fst zp])) ->
      forall acc, (exists r, step3 zp xp acc yp = Ok r) \/ step3 zp xp acc yp = Err e).
    { intros [kz pz] Hz [kx rx] Hx [ky ry] Hy acc. unfold step3. cbn [fst snd] in *.
      destruct (_ || _)%bool eqn:E0; [left; eauto|]. right. apply orb_false_iff in E0 as (E0 & E3). apply orb_false_iff in E0 as (E1 & E2).
      rewrite (log_fun_bad b e); [reflexivity|assumption|].
      apply is_zero_false in E1, E2, E3. rewrite given_norm in Hx, Hy, E1 |- *.
      set (z := leaves kz) in *. destruct (Req_dec (pr1 S Z z) 0) as [Ez|Ez]; [rewrite (proj2 (HX z) Ez) in Hx; destruct Hx|].
      pose proof (pr1_nonneg S Hpos Z z) as Gz.
      rewrite (cond_lookup _ z (given CXY [as_key z]) _ Ez (proj1 (HC z) Ez) (Hp z)) in E1 |- *.
      rewrite (proj1 (proj2 (proj1 (HX z) Ez)) _ _ Hx) in E2 |- *. rewrite (proj1 (proj2 (proj1 (HY z) Ez)) _ _ Hy) in E3 |- *.
      assert (Hi : 0 < / pr1 S Z z) by (apply Rinv_0_lt_compat; lra).
      assert (Hd : forall q, 0 <= q -> q / pr1 S Z z <> 0 -> 0 < q / pr1 S Z z).
      { intros q Hq Hn. unfold Rdiv in *. destruct Hq as [Hq|<-]; [apply Rmult_lt_0_compat; assumption|]. exfalso. apply Hn. ring. }
      apply Rdiv_lt_0_compat; [|apply Rmult_lt_0_compat]; apply Hd; try assumption; apply pr2_nonneg; assumption. }
    apply foldM_bad_at.
    { intros zp Hz acc. apply foldM_bad. intros xp Hx acc1. apply foldM_bad. intros yp Hy acc2. exact (Hstep zp Hz xp Hx yp Hy acc2). }
    (* the term of the outcome a is not skipped *)
    assert (Gz : 0 < pr1 S Z (Z a)) by (apply pr1_at; assumption).
    destruct (proj2 (proj2 HZ) (Z a)) as (kz & pz & Hz & Ekz); [lra|].
    exists (kz, pz). split; [assumption|]. intros acc. apply foldM_bad_at.
    { intros xp Hx acc1. apply foldM_bad. intros yp Hy acc2. exact (Hstep (kz, pz) Hz xp Hx yp Hy acc2). }
    assert (Ez : pr1 S Z (Z a) <> 0) by lra.
    assert (G : given CX [kz] = given CX [as_key (Z a)] /\ given CY [kz] = given CY [as_key (Z a)] /\ given CXY [kz] = given CXY [as_key (Z a)]) by (rewrite !(given_norm _ kz), Ekz; auto).
    destruct G as (G1 & G2 & G3).
    destruct (proj2 (proj2 (proj1 (HX (Z a)) Ez)) (X a)) as (kx & rx & Hx & Ekx); [assert (0 < pr2 S X (X a) Z (Z a)) by (apply pr2_at; assumption); lra|].
    destruct (proj2 (proj2 (proj1 (HY (Z a)) Ez)) (Y a)) as (ky & ry & Hy & Eky); [assert (0 < pr2 S Y (Y a) Z (Z a)) by (apply pr2_at; assumption); lra|].
    exists (kx, rx). cbn [fst snd]. split; [rewrite G1; assumption|]. intros acc1. apply foldM_bad_at.
    { intros yp Hy' acc2. apply (Hstep (kz, pz) Hz (kx, rx)); [cbn [fst]; rewrite G1; assumption|assumption]. }
    exists (ky, ry). cbn [fst snd]. split; [rewrite G2; assumption|]. intros acc2.
    destruct (Hstep (kz, pz) Hz (kx, rx)) with (yp := (ky, ry)) (acc := acc2) as [(r & E)|E]; cbn [fst]; [rewrite G1; assumption|rewrite G2; assumption| |exact E].
    exfalso. unfold step3 in E. cbn [fst snd] in E.
    assert (Hi : 0 < / pr1 S Z (Z a)) by (apply Rinv_0_lt_compat; lra).
    assert (P1 : 0 < pmf_p (given CXY [kz]) [kx; ky]).
    { rewrite G3, (cond_lookup _ (Z a) _ _ Ez (proj1 (HC (Z a)) Ez) (Hp (Z a))). unfold leaves_list. cbn [flat_map]. rewrite app_nil_r, Ekx, Eky. apply Rmult_lt_0_compat; [|assumption].
      apply (pr2_at S Hpos (fun a => X a ++ Y a) Z a); assumption. }
    assert (P2 : 0 < rx). { rewrite (proj1 (proj2 (proj1 (HX (Z a)) Ez)) _ _ Hx), Ekx. apply Rmult_lt_0_compat; [apply pr2_at; assumption|assumption]. }
    assert (P3 : 0 < ry). { rewrite (proj1 (proj2 (proj1 (HY (Z a)) Ez)) _ _ Hy), Eky. apply Rmult_lt_0_compat; [apply pr2_at; assumption|assumption]. }
    rewrite (proj2 (is_zero_false _)) in E by lra. rewrite (proj2 (is_zero_false rx)) in E by lra. rewrite (proj2 (is_zero_false ry)) in E by lra. cbn [orb] in E.
    rewrite (log_fun_bad b e) in E; [discriminate|assumption|]. apply Rdiv_lt_0_compat; [assumption|apply Rmult_lt_0_compat; assumption].
  Qed.
End CMI.

Theorem cmi_code_ok {A} (S : space A) X Y Z lx CXY CX CY PZ b : is_probability S -> (forall a, In a (outcomes S) -> length (X a) = lx) -> base_valid b -> 0 <= base_factor b ->
    cond_table S (fun a => X a ++ Y a) Z CXY -> cond_plain CXY -> cond_table S X Z CX -> cond_table S Y Z CY ->
    distribution S Z (probabilities PZ) ->
    cmi_sum CXY CX CY PZ b = Ok (cmi S X Y Z * base_factor b) /\
    conditional_mutual_information CXY CX CY PZ b = Ok (cmi S X Y Z * base_factor b).
Proof.
  intros HS Hl Hb Hf HC Hp HX HY HZ. pose proof (cmi_sum_ok S (proj1 HS) X Y Z lx Hl CXY CX CY PZ b Hb HC Hp HX HY HZ) as E. split; [assumption|].
  unfold conditional_mutual_information. rewrite E. simpl. f_equal. apply Rabs_pos_eq. apply Rmult_le_pos; [apply cmi_nonneg; assumption|assumption].
Qed.
