(** The G-test with AD-tree obtains exact tables. *)
From Coq Require Import Reals Lra.
From Verif Require Import Base AD_Model AD_Query_Model AD_Spec AD_Proofs AD_More_Proofs AD_Tables_Proofs Key_Model Key_Spec Key_Proofs PMF_Model PMF_Spec
  Prob_Spec Info_Spec Table_Spec Prob_Proofs PMF_Proofs PMF_Cond_Proofs Info_Proofs PMF_Data_Proofs Table_Proofs SameInfo_Proofs
  MB_Model MB_Cache_Proofs GTest_Model GTest_Spec GTest_Tables_Proofs GTest_DoF_Proofs GTest_Cache_Proofs GTest_Impl_Proofs.
Open Scope Z_scope.

Lemma nat_index_of x l : nat_index x l = index_of (Z.of_nat x) (map Z.of_nat l).
Proof.
  induction l as [|y l IH]; simpl; [reflexivity|]. rewrite IH. destruct (Nat.eqb_spec x y) as [->|H]; [rewrite Z.eqb_refl; reflexivity|].
  destruct (Z.eqb_spec (Z.of_nat x) (Z.of_nat y)); [lia|reflexivity].
Qed.
Definition psel (ids cs : list nat) (t : list Z) : list Z := sel (map Z.of_nat ids) (map Z.of_nat cs) t.
Lemma psel_proj ids cs row : incl cs ids -> psel ids cs (proj ids row) = proj cs row.
Proof.
  intros H. unfold psel. rewrite sel_components; [apply components_proj; assumption|apply of_nat_incl; assumption|].
  rewrite map_length, proj_length. lia.
Qed.
Lemma lookup_ok ids cs t : incl cs ids -> length t = length ids ->
  mapM (fun v => i <- of_option KeyError (nat_index v ids) ;; key_at (PTup (map PInt t)) i) cs = Ok (map PInt (psel ids cs t)).
Proof.
  intros Hinc Hl. induction cs as [|c cs IH]; [reflexivity|]. cbn [mapM].
  destruct (nat_index_ok c ids) as (i & E & Hi); [apply Hinc; left; reflexivity|]. rewrite E. cbn [of_option bind].
  assert (Hlt : (i < length ids)%nat) by (apply nth_error_Some; congruence).
  rewrite key_at_tup by lia. cbn [bind]. rewrite IH by (intros x Hx; apply Hinc; right; assumption). cbn [bind].
  unfold psel, sel. cbn [map]. rewrite <- nat_index_of, E. reflexivity.
Qed.

Section AD.
  Variable D : dataset.
  Hypothesis WF : wf_dataset D.
  Hypothesis HR : rows D <> [].
  Hypothesis NM : no_minus_one D.
  Hypothesis TH : threshold_ok D.
  Notation S := (data_space D).
  Let HS := data_probability D HR.

  Lemma empirical_pr1 cols key : length key = length cols -> (forall c, In c cols -> (c < ncols D)%nat) -> empirical D cols key = pr1 S (proj cols) key.
  Proof.
    intros Hl Hc. unfold empirical, pr1, data_space. rewrite pr_uniform. f_equal. unfold count_matching. rewrite <- INR_IZR_INZ. f_equal. f_equal.
    apply filter_ext_in. intros row Hin. unfold tuple_query.
    pose proof (row_agrees_key cols key row Hl (fun c H => row_width D WF row c Hin (Hc c H))) as Ha. change (row_key cols row) with (proj cols row) in Ha.
    destruct (eqv (proj cols row) key) eqn:E.
    - apply eqv_true in E. apply Ha. congruence.
    - apply eqv_false in E. destruct (row_agrees (combine cols key) row); [|reflexivity]. exfalso. apply E. symmetry. apply Ha. reflexivity.
  Qed.
  Lemma sort_length l : length (sort_nat l) = length l.
  Proof. apply Permutation_length, Permutation_sym, sort_perm. Qed.
  Lemma ad_pmf_ok dyn vars t : ok_root D dyn t -> vars <> [] -> NoDup vars -> (forall c, In c vars -> (c < ncols D)%nat) ->
    exists P t', ad_pmf D dyn vars t = Ok (P, t') /\ ok_root D dyn t' /\ pmf_of D (sort_nat vars) P /\ variable_IDs P = Some (map Z.of_nat (sort_nat vars)).
  Proof.
    intros Ht Hne HN Hr. destruct (make_pmf_ok D dyn vars t WF NM TH HR Ht Hne HN Hr) as (d & t' & E & Ht' & HNd & Hd & Hz & _).
    assert (Hr' : forall c, In c (sort_nat vars) -> (c < ncols D)%nat) by (intros c Hc; apply Hr, sort_in; assumption).
    unfold ad_pmf. rewrite E. cbn [bind]. eexists _, t'. split; [reflexivity|]. split; [assumption|]. split; [|reflexivity].
    assert (Hk : forall k r, In (k, r) (map (fun kv : list Z * R => (unwrap (map PInt (fst kv)), snd kv)) d) -> exists key, k = as_key key /\ In (key, r) d).
    { intros k r Hin. apply in_map_iff in Hin as ([key r'] & Ek & Hin). cbn [fst snd] in Ek. injection Ek as <- <-. exists key. rewrite unwrap_key. auto. }
    constructor; cbn [probabilities].
    - split; [|split].
      + rewrite map_map. cbn [fst]. erewrite map_ext; [exact HNd|]. intros [k r]. cbn [fst]. rewrite unwrap_key. apply leaves_as_key.
      + intros k r Hin. destruct (Hk k r Hin) as (key & -> & Hin'). rewrite leaves_as_key. destruct (Hd _ _ Hin') as (Hl & ->).
        apply empirical_pr1; [rewrite sort_length; assumption|assumption].
      + intros v Hv. apply pr1_rows in Hv as Hrow; [|assumption]. apply in_map_iff in Hrow as (row & <- & _).
        destruct (in_dec (list_eq_dec Z.eq_dec) (proj (sort_nat vars) row) (map fst d)) as [Hin|Hnin].
        * apply in_map_iff in Hin as ([key r] & Ek & Hin). cbn [fst] in Ek. subst key. exists (as_key (proj (sort_nat vars) row)), r. split; [|apply leaves_as_key].
          apply in_map_iff. exists (proj (sort_nat vars) row, r). cbn [fst snd]. rewrite unwrap_key. auto.
        * exfalso. apply Hv. rewrite <- empirical_pr1; [|apply proj_length|assumption]. apply Hz; [rewrite proj_length; apply sort_length|assumption].
    - intros k r Hin. destruct (Hk k r Hin) as (key & -> & _). rewrite leaves_as_key. reflexivity.
    - intros k r Hin. destruct (Hk k r Hin) as (key & -> & Hin'). rewrite leaves_as_key, sort_length. apply (Hd _ _ Hin').
  Qed.

  Lemma reverse_ok P a b : pmf_of D [a; b] P -> exists P', reverse_keys P = Ok P' /\ pmf_of D [b; a] P' /\ variable_IDs P' = variable_IDs P.
  Proof.
    intros [(HN & Hr & Hc) H2 H3]. unfold reverse_keys.
    assert (E : mapM (fun kv : pyobj * R => match fst kv with PTup l => Ok (PTup (rev l), snd kv) | PInt _ => Err TypeError end) (probabilities P) =
      Ok (map (fun kv => (PTup (map PInt (rev (leaves (fst kv)))), snd kv)) (probabilities P))).
    { rewrite <- (map_id (probabilities P)) at 1. apply mapM_ext_map. intros [k r] Hin. cbn [fst snd].
      pose proof (plain_tuple k 2 (H2 _ _ Hin) (H3 _ _ Hin) ltac:(lia)) as Ek. rewrite Ek at 1. rewrite map_rev. reflexivity. }
    rewrite E. cbn [bind]. eexists. split; [reflexivity|]. split; [|reflexivity].
    assert (Lr : forall l : list Z, leaves (PTup (map PInt l)) = l) by (intros; rewrite leaves_tup; apply leaves_list_ints).
    assert (Epr : forall v : list Z, pr1 S (proj [b; a]) (rev v) = pr1 S (proj [a; b]) v).
    { intros v. apply pr_ext. intros row _. change (proj [b; a] row) with (rev (proj [a; b] row)). apply eq_true_iff_eq. rewrite !eqv_true.
      split; [|congruence]. intros E'. rewrite <- (rev_involutive v), <- E', rev_involutive. reflexivity. }
    constructor; cbn [with_probabilities probabilities].
    - split; [|split].
      + rewrite map_map. cbn [fst]. erewrite map_ext; [|intros kv; apply Lr]. rewrite <- (map_map (fun kv : pyobj * R => leaves (fst kv)) (@rev Z)).
        apply FinFun.Injective_map_NoDup; [|assumption]. intros x y Exy. rewrite <- (rev_involutive x), Exy, rev_involutive. reflexivity.
      + intros k r Hin. apply in_map_iff in Hin as ([k0 r0] & Ek & Hin). cbn [fst snd] in Ek. injection Ek as <- <-. rewrite Lr, Epr. apply Hr. assumption.
      + intros v Hv. rewrite <- (rev_involutive v), Epr in Hv. destruct (Hc _ Hv) as (k & r & Hin & El).
        exists (PTup (map PInt (rev (leaves k)))), r. split; [apply in_map_iff; exists (k, r); auto|]. rewrite Lr, El. apply rev_involutive.
    - intros k r Hin. apply in_map_iff in Hin as ([k0 r0] & Ek & Hin). cbn [fst snd] in Ek. injection Ek as <- <-. rewrite Lr.
      pose proof (H3 _ _ Hin) as Hl. rewrite <- rev_length in Hl. destruct (rev (leaves k0)) as [|x [|y m]]; try discriminate. reflexivity.
    - intros k r Hin. apply in_map_iff in Hin as ([k0 r0] & Ek & Hin). cbn [fst snd] in Ek. injection Ek as <- <-. rewrite Lr, rev_length. apply (H3 _ _ Hin).
  Qed.

  Lemma ad_condition_ok dyn (single : bool) vars Z PZ t : ok_root D dyn t -> NoDup (vars ++ Z) -> (forall c, In c (vars ++ Z) -> (c < ncols D)%nat) ->
    Z <> [] -> (if single then length vars = 1%nat else (2 <= length vars)%nat) -> pmf_of D Z PZ ->
    exists C PJ t', ad_condition D dyn single vars Z PZ t = Ok (C, PJ, t') /\ ok_root D dyn t' /\
      cond_table S (proj vars) (proj Z) C /\ (single = false -> cond_plain C) /\
      pmf_of D (sort_nat (vars ++ Z)) PJ /\ variable_IDs PJ = Some (map Z.of_nat (sort_nat (vars ++ Z))).
  Proof.
    intros Ht HN Hr HZ Hs HPZ. unfold ad_condition. set (joint := sort_nat (vars ++ Z)).
    assert (HNj : NoDup joint) by (apply (Permutation_NoDup (sort_perm _)); assumption).
    assert (Hin : forall c, In c joint <-> In c (vars ++ Z)) by (intros c; apply sort_in).
    assert (Hv : (1 <= length vars)%nat) by (destruct single; lia).
    assert (Hlj : (2 <= length joint)%nat).
    { unfold joint. rewrite sort_length, app_length. destruct Z; [congruence|simpl; lia]. }
    destruct (ad_pmf_ok dyn joint t) as (PJ & t' & E & Ht' & HPJ & HV); auto; [destruct joint; [simpl in Hlj; lia|discriminate]|intros c Hc; apply Hr, Hin; assumption|].
    unfold joint in HPJ, HV. rewrite sort_idem in HPJ, HV by assumption. fold joint in HPJ, HV. rewrite E. cbn [bind].
    assert (Ef : filter (fun v : nat => negb (mem v Z)) (vars ++ Z) = vars).
    { apply filter_not_mem. intros v Hv1 Hv2. clear -HN Hv1 Hv2. induction vars as [|w vars IH]; [contradiction|].
      inversion HN; subst. destruct Hv1 as [-> | Hv1]; [apply H1, in_app_iff; auto|auto]. }
    rewrite Ef. set (q := fun z => pmf_p PZ [z]).
    assert (IZ : incl Z joint) by (intros c Hc; apply Hin, in_app_iff; auto).
    assert (IV : incl vars joint) by (intros c Hc; apply Hin, in_app_iff; auto).
    assert (HC : foldM (fun (C : cpmf) (kv : pyobj * R) =>
        zk <- mapM (fun v => i <- of_option KeyError (nat_index v joint) ;; key_at (fst kv) i) Z ;;
        vk <- mapM (fun v => i <- of_option KeyError (nat_index v joint) ;; key_at (fst kv) i) vars ;;
        vkey <- (if single then of_option IndexError (hd_error vk) else Ok (PTup vk)) ;;
        Ok (store_conditional C (unwrap zk) vkey (snd kv) (pmf_p PZ [unwrap zk]))) (probabilities PJ) [] =
      Ok (store_all q (map (fun kr => (as_key (psel joint Z (leaves (fst kr))), as_key (psel joint vars (leaves (fst kr))), snd kr)) (probabilities PJ)))).
    { unfold store_all. rewrite fold_left_map. apply foldM_fold. intros C [k r] Hkr. cbn [fst snd].
      pose proof (plain_tuple k (length joint) (po_plain _ _ _ HPJ _ _ Hkr) (po_len _ _ _ HPJ _ _ Hkr) Hlj) as Ek.
      pose proof (po_len _ _ _ HPJ _ _ Hkr) as Hl. clear Hkr. revert Ek Hl. generalize (leaves k). intros l -> Hl.
      rewrite lookup_ok by assumption. cbn [bind]. rewrite lookup_ok by assumption. cbn [bind]. rewrite unwrap_key. unfold q.
      destruct single; destruct vars as [|v [|v' vs]]; try (simpl in Hs; lia); reflexivity. }
    rewrite HC. cbn [bind]. eexists _, PJ, t'. split; [reflexivity|]. split; [assumption|].
    assert (Hq : forall z, q (as_key z) = pr1 S (fun a => psel joint Z (proj joint a)) z).
    { intros z. unfold q. rewrite (pmf_p_ok S (proj Z) PZ _ (proj1 HS) (po_dist _ _ _ HPZ) (po_plain _ _ _ HPZ)). unfold leaves_list. simpl flat_map.
      rewrite app_nil_r, leaves_as_key. apply pr_ext. intros row _. cbv beta. rewrite psel_proj by assumption. reflexivity. }
    assert (Hsplit := split_table_ok S (proj1 HS) (proj joint) (probabilities PJ) (psel joint vars) (psel joint Z) as_key q (po_dist _ _ _ HPJ)).
    specialize (Hsplit leaves_as_key).
    specialize (Hsplit ltac:(intros k r k' r' Hk Hk' E1 E2; apply (sel_determines (map Z.of_nat joint) (map Z.of_nat vars) (map Z.of_nat Z));
      [apply of_nat_NoDup; assumption|intros c Hc; apply in_map_iff in Hc as (c0 & <- & Hc); apply Hin, in_app_iff in Hc as [Hc|Hc]; [left|right]; apply in_map; assumption|
       rewrite map_length; apply (po_len _ _ _ HPJ _ _ Hk)|rewrite map_length; apply (po_len _ _ _ HPJ _ _ Hk')|exact E1|exact E2])).
    specialize (Hsplit Hq _ eq_refl). split; [|split; [|split; assumption]].
    - intros z. destruct (Hsplit z) as (H1 & H2 & _). cbv zeta in *. rewrite given_table. change (leaves_list [as_key z]) with (leaves (as_key z) ++ []). rewrite leaves_as_key, app_nil_r.
      assert (Epr : pr1 S (fun a => psel joint Z (proj joint a)) z = pr1 S (proj Z) z) by (apply pr_ext; intros a _; cbv beta; rewrite psel_proj by assumption; reflexivity).
      rewrite Epr in H1, H2. split; [|exact H2]. intros Hz. eapply conditional_ext; [|apply H1, Hz]. intros a _. cbv beta. rewrite !psel_proj by assumption. auto.
    - intros Es z k r. rewrite given_table. change (leaves_list [as_key z]) with (leaves (as_key z) ++ []). rewrite leaves_as_key, app_nil_r.
      intros Hkr. apply (proj2 (proj2 (Hsplit z)) _ _ Hkr).
  Qed.

  Lemma described_ad cols P : NoDup cols -> pmf_of D cols P -> variable_IDs P = Some (map Z.of_nat cols) -> described D P (cols, cols).
  Proof. intros HN HP HV. split; [assumption|]. split; [assumption|]. split; [left; reflexivity|left; assumption]. Qed.
  Lemma sort_nodup l : NoDup l -> NoDup (sort_nat l).
  Proof. apply Permutation_NoDup, sort_perm. Qed.

  Lemma ad_tables_ok dyn kind c t X Y Z : ok_root D dyn t -> NoDup (X :: Y :: Z) -> (forall v, In v (X :: Y :: Z) -> (v < ncols D)%nat) -> dcache_ok D c ->
    exists CXY CX CY PZ c' t', ad_tables D dyn kind c t X Y Z = Ok (CXY, CX, CY, PZ, c', t') /\ ok_root D dyn t' /\ good D X Y Z CXY CX CY PZ /\ dcache_ok D c' /\
      (kind = CachedStructuralDoF -> assoc list_eqb (frozenset (X :: Y :: Z)) c' <> None).
  Proof.
    intros Ht HN Hr Hc. inversion HN as [|? ? NX HN']; subst. inversion HN' as [|? ? NY HNZ]; subst.
    assert (HXY : X <> Y) by (intros ->; apply NX; left; reflexivity).
    assert (NS : forall v : nat, NoDup [v]) by (repeat constructor; simpl; tauto).
    unfold ad_tables. destruct Z as [|z0 Z0].
    - assert (N2 : NoDup (sort_nat [X; Y])) by (apply sort_nodup; assumption).
      destruct (ad_pmf_ok dyn (sort_nat [X; Y]) t) as (PXY0 & t1 & E1 & Ht1 & P1 & V1); auto;
        [destruct (sort_pair X Y HXY) as [-> | ->]; discriminate|intros v Hv; apply Hr, sort_in; assumption|].
      rewrite sort_idem in P1, V1 by assumption. rewrite E1. cbn [bind].
      assert (HPXY : exists PXY q, (if list_eqb [X; Y] (sort_nat [X; Y]) then Ok PXY0 else reverse_keys PXY0) = Ok PXY /\ described D PXY (q, [X; Y]) /\
        frozenset q = frozenset [X; Y] /\ variable_IDs PXY <> None /\ length q = 2%nat).
      { destruct (sort_pair X Y HXY) as [Es|Es]; rewrite Es in *.
        - rewrite list_eqb_refl. exists PXY0, [X; Y]. split; [reflexivity|]. split; [apply described_ad; assumption|]. repeat split; congruence.
        - assert (Ef : list_eqb [X; Y] [Y; X] = false) by (apply not_true_iff_false; rewrite list_eqb_eq; congruence). rewrite Ef.
          destruct (reverse_ok PXY0 Y X P1) as (P' & E' & H' & V'). exists P', [Y; X]. split; [assumption|].
          split; [split; [assumption|split; [exact HN|split; [right; exists Y, X; auto|left; rewrite V'; exact V1]]]|].
          split; [apply frozenset_eq; intros x; simpl; tauto|]. split; [congruence|reflexivity]. }
      destruct HPXY as (PXY & q & E2 & Hd & Eq & HV & Hlq). rewrite E2. cbn [bind].
      destruct (ad_pmf_ok dyn [X] t1) as (PX & t2 & E3 & Ht2 & P3 & V3); auto; [discriminate|intros v [<-|[]]; apply Hr; left; reflexivity|]. rewrite E3. cbn [bind].
      destruct (ad_pmf_ok dyn [Y] t2) as (PY & t3 & E4 & Ht3 & P4 & V4); auto; [discriminate|intros v [<-|[]]; apply Hr; right; left; reflexivity|]. rewrite E4. cbn [bind].
      destruct (set_context_ok D HR kind c [PXY; PX; PY] [(q, [X; Y]); ([X], [X]); ([Y], [Y])] Hc) as (c' & Ps' & E5 & Hc' & HPs & _ & Hin).
      { constructor; [assumption|]. constructor; [apply described_ad; auto|]. constructor; [apply described_ad; auto|constructor]. }
      rewrite E5. cbn [bind]. inversion HPs as [|P1' ? ? ? HP1 HPs2]; subst. inversion HPs2 as [|P2' ? ? ? HP2 HPs3]; subst. inversion HPs3 as [|P3' ? ? ? HP3 HPs4]; subst. inversion HPs4; subst.
      eexists _, _, _, _, _, _. split; [reflexivity|]. split; [assumption|]. split; [apply good_empty; assumption|]. split; [assumption|].
      intros Hk. rewrite <- Eq. apply (Hin Hk PXY (q, [X; Y])); [reflexivity..|assumption|cbn [fst]; lia].
    - remember (z0 :: Z0) as Z eqn:EZ. assert (HZ : Z <> []) by (subst; discriminate). cbv zeta.
      assert (HsZ : sort_nat Z <> []) by (intros E; apply (f_equal (@length nat)) in E; rewrite sort_length in E; destruct Z; [congruence|discriminate]).
      assert (N0 : NoDup (sort_nat Z)) by (apply sort_nodup; assumption).
      assert (Napp : forall l, NoDup (l ++ Z) -> NoDup (l ++ sort_nat Z)).
      { intros l H. apply (Permutation_NoDup (l := l ++ Z)); [apply Permutation_app_head, sort_perm|assumption]. }
      assert (Rapp : forall l, incl (l ++ Z) (X :: Y :: Z) -> forall v, In v (l ++ sort_nat Z) -> (v < ncols D)%nat).
      { intros l H v Hv. apply Hr, H, in_app_iff. apply in_app_iff in Hv as [Hv|Hv]; [auto|right; apply sort_in; assumption]. }
      assert (N1 : NoDup ([X; Y] ++ sort_nat Z)) by (apply Napp; exact HN).
      assert (N2 : NoDup ([X] ++ sort_nat Z)) by (apply Napp; constructor; [intros H; apply NX; right; assumption|assumption]).
      assert (N3 : NoDup ([Y] ++ sort_nat Z)) by (apply Napp; exact HN').
      assert (R1 := Rapp [X; Y] (incl_refl _)).
      assert (R2 := Rapp [X] ltac:(intros v [<-|Hv]; [left; reflexivity|right; right; assumption])).
      assert (R3 := Rapp [Y] ltac:(intros v [<-|Hv]; [right; left; reflexivity|right; right; assumption])).
      destruct (ad_pmf_ok dyn (sort_nat Z) t) as (PZ & t1 & E1 & Ht1 & P1 & V1); auto; [intros v Hv; apply (Rapp [X; Y] (incl_refl _)), in_app_iff; auto|].
      rewrite sort_idem in P1, V1 by assumption. rewrite E1. cbn [bind].
      destruct (ad_condition_ok dyn false [X; Y] (sort_nat Z) PZ t1) as (CXY & PXYZ & t2 & E2 & Ht2 & G2 & C2 & P2 & V2); auto. rewrite E2. cbn [bind].
      destruct (ad_condition_ok dyn true [X] (sort_nat Z) PZ t2) as (CX & PXZ & t3 & E3 & Ht3 & G3 & _ & P3 & V3); auto. rewrite E3. cbn [bind].
      destruct (ad_condition_ok dyn true [Y] (sort_nat Z) PZ t3) as (CY & PYZ & t4 & E4 & Ht4 & G4 & _ & P4 & V4); auto. rewrite E4. cbn [bind].
      destruct (set_context_ok D HR kind c [PXYZ; PXZ; PYZ; PZ] (map (fun l => (l, l)) [sort_nat ([X; Y] ++ sort_nat Z); sort_nat ([X] ++ sort_nat Z); sort_nat ([Y] ++ sort_nat Z); sort_nat Z]) Hc)
        as (c' & Ps' & E5 & Hc' & HPs & _ & Hin).
      { constructor; [apply described_ad; auto using sort_nodup|]. constructor; [apply described_ad; auto using sort_nodup|].
        constructor; [apply described_ad; auto using sort_nodup|]. constructor; [apply described_ad; auto using sort_nodup|constructor]. }
      rewrite E5. cbn [bind]. cbn [map] in HPs.
      inversion HPs as [|P1' ? ? ? HP1 HPs2]; subst. inversion HPs2 as [|P2' ? ? ? HP2 HPs3]; subst. inversion HPs3 as [|P3' ? ? ? HP3 HPs4]; subst. inversion HPs4 as [|P4' ? ? ? HP4 HPs5]; subst. inversion HPs5; subst.
      eexists _, _, _, _, _, _. split; [reflexivity|]. split; [assumption|]. split; [|split; [assumption|]].
      + exists (proj (sort_nat (z0 :: Z0))). split; [apply proj_same; intros v; apply sort_in|]. split; [exact G2|]. split; [apply C2; reflexivity|].
        split; [assumption|]. split; [assumption|]. apply (po_dist _ _ _ HP4).
      + intros Hk. replace (frozenset (X :: Y :: z0 :: Z0)) with (frozenset (sort_nat ([X; Y] ++ sort_nat (z0 :: Z0)))).
        * apply (Hin Hk PXYZ (sort_nat ([X; Y] ++ sort_nat (z0 :: Z0)), sort_nat ([X; Y] ++ sort_nat (z0 :: Z0)))); [reflexivity|reflexivity|congruence|].
          cbn [fst]. rewrite sort_length, app_length. change (length [X; Y]) with 2%nat. lia.
        * apply frozenset_eq. intros v. rewrite sort_in, in_app_iff, sort_in. simpl. tauto.
  Qed.
End AD.
