(** The degrees-of-freedom calculators count the values that occur in the data. *)
From Coq Require Import Reals Lra.
From Verif Require Import Base AD_Model AD_Query_Model AD_Spec Key_Model Key_Spec Key_Proofs PMF_Model PMF_Spec
  Prob_Spec Info_Spec Table_Spec Prob_Proofs PMF_Proofs PMF_Cond_Proofs Info_Proofs PMF_Data_Proofs Table_Proofs SameInfo_Proofs
  MB_Model MB_Cache_Proofs GTest_Model GTest_Spec GTest_Tables_Proofs.
Open Scope Z_scope.

Definition nz (kv : pyobj * R) : bool := if Req_EM_T (snd kv) 0 then false else true.
Lemma nz_true kv : nz kv = true <-> snd kv <> 0%R.
Proof. unfold nz. destruct (Req_EM_T (snd kv) 0); split; congruence. Qed.
Lemma remove_zeros_prob P : probabilities (remove_zeros P) = filter nz (probabilities P).
Proof. reflexivity. Qed.
Lemma NoDup_map_filter {A B} (f : A -> B) p l : NoDup (map f l) -> NoDup (map f (filter p l)).
Proof.
  induction l as [|x l IH]; simpl; intros H; [constructor|]. inversion H; subst. destruct (p x); [|auto]. simpl. constructor; [|auto].
  intros Hin. apply H2. apply in_map_iff in Hin as (y & E & Hy). apply filter_In in Hy. apply in_map_iff. exists y. tauto.
Qed.

Section Zeros.
  Context {A : Type} (S : space A).
  Lemma rz_distribution T d : distribution S T d -> distribution S T (filter nz d).
  Proof.
    intros (HN & Hv & Hc). split; [|split].
    - apply NoDup_map_filter. assumption.
    - intros k r Hin. apply filter_In in Hin. apply Hv, Hin.
    - intros v Hnz. destruct (Hc v Hnz) as (k & r & Hin & E). exists k, r. split; [|assumption]. apply filter_In. split; [assumption|].
      apply nz_true. cbn [snd]. rewrite (Hv _ _ Hin), E. assumption.
  Qed.
  Lemma rz_conditional X Z z d : pr1 S Z z <> 0%R -> conditional_distribution S X Z z d -> conditional_distribution S X Z z (filter nz d).
  Proof.
    intros Hz (HN & Hv & Hc). split; [|split].
    - apply NoDup_map_filter. assumption.
    - intros k r Hin. apply filter_In in Hin. apply Hv, Hin.
    - intros v Hnz. destruct (Hc v Hnz) as (k & r & Hin & E). exists k, r. split; [|assumption]. apply filter_In. split; [assumption|].
      apply nz_true. cbn [snd]. rewrite (Hv _ _ Hin), E. intros E0. apply Hnz. apply (f_equal (fun t => t * pr1 S Z z)%R) in E0. unfold Rdiv in E0.
      rewrite Rmult_assoc, Rinv_l, Rmult_1_r, Rmult_0_l in E0; assumption.
  Qed.
  Lemma rz_plain (d : list (pyobj * R)) : plain_keys d -> plain_keys (filter nz d).
  Proof. intros H k r Hin. apply filter_In in Hin. eapply H. apply Hin. Qed.
  Lemma rz_table ids T P : is_table S ids T P -> is_table S ids T (remove_zeros P).
  Proof.
    intros [H1 H2 H3 (H4 & H5)]. constructor; [assumption|assumption|apply rz_distribution; assumption|].
    split; [apply rz_plain; assumption|]. intros k r Hin. rewrite remove_zeros_prob in Hin. apply filter_In in Hin. eapply H5. apply Hin.
  Qed.
  Lemma given_put C z P z' : given (put_given C z P) [as_key z'] =
    match assoc pyobj_eqb (as_key (leaves z)) C with
    | None => given C [as_key z']
    | Some _ => if eqv (leaves z) z' then P else given C [as_key z']
    end.
  Proof.
    unfold put_given. rewrite !given_table. rewrite process_key. unfold leaves_list. cbn [flat_map]. rewrite !app_nil_r, leaves_as_key.
    destruct (assoc pyobj_eqb (as_key (leaves z)) C) eqn:E; [|reflexivity].
    unfold table_at. destruct (eqv (leaves z) z') eqn:Ez.
    - apply eqv_true in Ez. subst z'. rewrite kset_same. reflexivity.
    - apply eqv_false in Ez. rewrite kset_other; [reflexivity|]. intros H. apply as_key_inj in H. congruence.
  Qed.
  Lemma put_given_table X Z C z : cond_table S X Z C -> cond_table S X Z (put_given C z (remove_zeros (given C [z]))).
  Proof.
    intros H z'. cbv zeta. rewrite given_put. destruct (assoc pyobj_eqb (as_key (leaves z)) C); [|apply H].
    destruct (eqv (leaves z) z') eqn:Ez; [|apply H]. apply eqv_true in Ez. subst z'. rewrite given_norm, remove_zeros_prob.
    destruct (H (leaves z)) as (H1 & H2). split.
    - intros Hz. apply rz_conditional; [assumption|]. apply H1, Hz.
    - intros Hz. rewrite (H2 Hz). reflexivity.
  Qed.
End Zeros.

Section Count.
  Variable D : dataset.
  Hypothesis HR : rows D <> [].
  Notation S := (data_space D).

  Lemma nz_values T d : distribution S T d ->
    NoDup (map (fun kv => leaves (fst kv)) (filter nz d)) /\ forall v, In v (map (fun kv => leaves (fst kv)) (filter nz d)) <-> In v (map T (rows D)).
  Proof.
    intros Hd. destruct Hd as (HN & Hv & Hc). split; [apply NoDup_map_filter; assumption|]. intros v. rewrite <- (pr1_rows D HR). split.
    - intros Hin. apply in_map_iff in Hin as ([k r] & <- & Hin). apply filter_In in Hin as (Hin & Hr). apply nz_true in Hr. cbn [fst snd] in *. rewrite (Hv _ _ Hin) in Hr. assumption.
    - intros Hnz. destruct (Hc v Hnz) as (k & r & Hin & E). apply in_map_iff. exists (k, r). split; [assumption|]. apply filter_In. split; [assumption|].
      apply nz_true. cbn [snd]. rewrite (Hv _ _ Hin), E. assumption.
  Qed.
  Lemma nz_cond_length X Z z d : pr1 S Z z <> 0%R -> conditional_distribution S X Z z d ->
    Z.of_nat (length (filter nz d)) = count_distinct X (filter (fun row => eqv (Z row) z) (rows D)).
  Proof.
    intros Hz Hd. pose proof (rz_conditional S X Z z d Hz Hd) as (HN & Hv & Hc).
    unfold count_distinct. f_equal. rewrite <- (map_length (fun kv : pyobj * R => leaves (fst kv))). apply Permutation_length.
    apply NoDup_Permutation; [assumption|apply NoDup_nodup|]. intros v. rewrite nodup_In, <- (pr2_rows D HR). split.
    - intros Hin. apply in_map_iff in Hin as ([k r] & <- & Hin). pose proof (Hv _ _ Hin) as Er. apply filter_In in Hin as (Hin & Hr). apply nz_true in Hr. cbn [fst snd] in *.
      intros E0. rewrite E0 in Er. apply Hr. rewrite Er. unfold Rdiv. ring.
    - intros Hnz. destruct (Hc v Hnz) as (k & r & Hin & E). apply in_map_iff. exists (k, r). tauto.
  Qed.

  (** StructuralDoF *)
  Lemma structural_fold X Y Z l : forall acc CX CY, cond_table S X Z CX -> cond_table S Y Z CY ->
    (forall k r, In (k, r) l -> r = pr1 S Z (leaves k)) ->
    exists CX' CY', fold_left structural_step l (acc, CX, CY) =
      (acc + zsum (map (fun z => let rs := filter (fun row => eqv (Z row) z) (rows D) in (count_distinct X rs - 1) * (count_distinct Y rs - 1))
                       (map (fun kv => leaves (fst kv)) (filter nz l))), CX', CY') /\ cond_table S X Z CX' /\ cond_table S Y Z CY'.
  Proof.
    induction l as [|[k r] l IH]; intros acc CX CY HX HY Hl.
    - exists CX, CY. simpl. rewrite Z.add_0_r. auto.
    - cbn [fold_left]. cbn [filter]. destruct (nz (k, r)) eqn:En.
      + apply nz_true in En. cbn [snd] in En. assert (Hz : pr1 S Z (leaves k) <> 0%R) by (rewrite <- (Hl k r) by (left; reflexivity); assumption).
        unfold structural_step at 2. cbn [fst snd]. replace (is_zero r) with false by (symmetry; apply is_zero_false; assumption).
        destruct (IH (acc + (count_distinct X (filter (fun row => eqv (Z row) (leaves k)) (rows D)) - 1) * (count_distinct Y (filter (fun row => eqv (Z row) (leaves k)) (rows D)) - 1))
                     (put_given CX k (remove_zeros (given CX [k]))) (put_given CY k (remove_zeros (given CY [k])))) as (CX' & CY' & E & H1 & H2).
        * apply put_given_table; assumption.
        * apply put_given_table; assumption.
        * intros; apply Hl; right; assumption.
        * exists CX', CY'. split; [|split; assumption]. rewrite !remove_zeros_prob.
          rewrite (given_norm CX), (nz_cond_length X Z (leaves k)) by (try assumption; apply HX; assumption).
          rewrite (given_norm CY), (nz_cond_length Y Z (leaves k)) by (try assumption; apply HY; assumption).
          rewrite <- (given_norm CX), <- (given_norm CY). rewrite E. cbn [map fst zsum]. f_equal. f_equal. lia.
      + assert (E0 : is_zero r = true) by (apply is_zero_true; destruct (Req_EM_T r 0) as [?|?]; [assumption|exfalso; unfold nz in En; cbn [snd] in En; destruct (Req_EM_T r 0); congruence]).
        unfold structural_step at 2. cbn [snd]. rewrite E0. apply IH; [assumption..|]. intros; apply Hl; right; assumption.
  Qed.
  Lemma structural_DoF_ok X Y Z CX CY PZ : cond_table S X Z CX -> cond_table S Y Z CY -> distribution S Z (probabilities PZ) ->
    exists CX' CY', structural_DoF CX CY PZ = (at_least_one (sdof (rows D) X Y Z), CX', CY') /\ cond_table S X Z CX' /\ cond_table S Y Z CY'.
  Proof.
    intros HX HY HZ. destruct (structural_fold X Y Z (probabilities PZ) 0 CX CY HX HY) as (CX' & CY' & E & H1 & H2); [apply HZ|].
    exists CX', CY'. split; [|split; assumption]. unfold structural_DoF. rewrite E. f_equal. f_equal. f_equal. rewrite Z.add_0_l. unfold sdof.
    apply zsum_perm. apply Permutation_map. destruct (nz_values Z _ HZ) as (HN & Hs). apply NoDup_Permutation; [assumption|apply NoDup_nodup|].
    intros v. rewrite nodup_In. apply Hs.
  Qed.

  (** UnadjustedDoF *)
  Lemma value_count_ok c : wf_dataset D -> (c < ncols D)%nat -> value_count D c = Ok (declared D c).
  Proof. intros WF Hc. destruct (wf_vals D WF c Hc) as (vs & E & _). unfold value_count, declared. rewrite E. reflexivity. Qed.
  Lemma unadjusted_ok X Y Z : wf_dataset D -> (forall c, In c (X :: Y :: Z) -> (c < ncols D)%nat) -> unadjusted_DoF D X Y Z = Ok (unadjusted_dof D X Y Z).
  Proof.
    intros WF Hc. unfold unadjusted_DoF. rewrite !value_count_ok by (auto with datatypes). cbn [bind].
    assert (E : forall acc, foldM (fun acc c => n <- value_count D c ;; Ok (acc * n)) Z acc = Ok (acc * fold_right (fun c acc => declared D c * acc) 1 Z)).
    { assert (HZ : forall c, In c Z -> (c < ncols D)%nat) by auto with datatypes. clear Hc. induction Z as [|z Z IH]; intros acc; cbn [foldM fold_right]; [f_equal; lia|].
      rewrite value_count_ok by auto with datatypes. cbn [bind]. rewrite IH by auto with datatypes. f_equal. lia. }
    rewrite E. cbn [bind]. unfold unadjusted_dof, at_least_one. f_equal. rewrite Z.mul_1_l. reflexivity.
  Qed.
End Count.
