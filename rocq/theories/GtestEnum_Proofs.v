From Verif Require Import Base MB_Model MB_Cache_Proofs Sources_Model Sources_Proofs GtestEnum_Model GtestEnum_Spec.
Open Scope nat_scope.

(** ** lists *)
Lemma NoDup_app2 {A} (a b : list A) : NoDup a -> NoDup b -> (forall z, In z a -> ~ In z b) -> NoDup (a ++ b).
Proof.
  intros Ha Hb H. induction Ha as [|z a Hz Ha IH]; [assumption|]. cbn [List.app]. constructor.
  - rewrite in_app_iff. intros [I|I]; [contradiction|]. apply (H z); [left; reflexivity|assumption].
  - apply IH. intros y Hy. apply H. right. assumption.
Qed.
Lemma NoDup_flat {A B} (f : A -> list B) : forall l, NoDup l -> (forall x, In x l -> NoDup (f x)) ->
  (forall x y z, In x l -> In y l -> In z (f x) -> In z (f y) -> x = y) -> NoDup (flat_map f l).
Proof.
  induction l as [|x l IH]; intros N F D; cbn [flat_map]; [constructor|].
  inversion N; subst.
  apply NoDup_app2.
  - apply F. left. reflexivity.
  - apply IH; [assumption| |]; intros; [apply F; right; assumption|]. eapply D; try (right; eassumption); eassumption.
  - intros z Hz Hz'. apply in_flat_map in Hz'. destruct Hz' as (y & Iy & Hy).
    assert (x = y) as <- by (eapply D; [left; reflexivity|right; assumption|eassumption|eassumption]). contradiction.
Qed.
Lemma NoDup_strict l : StronglySorted lt l -> NoDup l.
Proof.
  induction 1 as [|x l S IH H]; constructor; [|assumption]. intros I.
  rewrite Forall_forall in H. specialize (H _ I). lia.
Qed.

(** combinations of a list without repetitions: each set once *)
Lemma combinations_same (l : list nat) : NoDup l -> forall k Z Z',
  In Z (combinations k l) -> In Z' (combinations k l) -> same_set Z Z' -> Z = Z'.
Proof.
  induction 1 as [|x l Hx N IH]; intros k Z Z' H H' S.
  - destruct k; cbn [combinations In] in *; [|contradiction]. destruct H as [<- | []], H' as [<- | []]. reflexivity.
  - destruct k as [|k]; [cbn in H, H'; destruct H as [<- | []], H' as [<- | []]; reflexivity|].
    cbn [combinations] in H, H'. apply in_app_or in H. apply in_app_or in H'.
    assert (Out : forall k W, In W (combinations k l) -> ~ In x W).
    { intros k' W HW Hin. apply Hx. apply (combinations_sound l k' W HW). assumption. }
    destruct H as [H|H], H' as [H'|H'].
    + apply in_map_iff in H. destruct H as (W & <- & H). apply in_map_iff in H'. destruct H' as (W' & <- & H').
      f_equal. eapply IH; [exact H|exact H'|]. intros y. specialize (S y). cbn [In] in S.
      pose proof (Out _ _ H). pose proof (Out _ _ H'). split; intros I.
      * destruct (proj1 S (or_intror I)) as [<-|]; [contradiction|assumption].
      * destruct (proj2 S (or_intror I)) as [<-|]; [contradiction|assumption].
    + exfalso. apply in_map_iff in H. destruct H as (W & <- & H). apply (Out _ _ H'). apply S. left. reflexivity.
    + exfalso. apply in_map_iff in H'. destruct H' as (W & <- & H'). apply (Out _ _ H). apply S. left. reflexivity.
    + eapply IH; eassumption.
Qed.
Lemma combinations_NoDup (l : list nat) : NoDup l -> forall k, NoDup (combinations k l).
Proof.
  induction 1 as [|x l Hx N IH]; intros k; destruct k as [|k]; try (cbn; repeat constructor; intros []).
  cbn [combinations].
  apply NoDup_app2.
  - apply FinFun.Injective_map_NoDup; [|apply IH]. intros a b E. congruence.
  - apply IH.
  - intros z Hz Hz'. apply in_map_iff in Hz. destruct Hz as (W & <- & HW).
    apply Hx. apply (combinations_sound l (S k) _ Hz'). left. reflexivity.
Qed.

(** ** the enumeration *)
Section Enumeration.
  Variable it : list nat -> list nat.
  Variable it_perm : forall l, Permutation (it l) l.
  Variable F : list nat.
  Variable HF : NoDup F.

  Lemma set_diff_In s t (x : nat) : In x (set_diff s t) <-> In x s /\ ~ In x t.
  Proof.
    unfold set_diff. rewrite filter_In. unfold mem. split; intros (H1 & H2); (split; [assumption|]).
    - intros I. apply negb_true_iff in H2. assert (existsb (Nat.eqb x) t = true); [|congruence].
      apply existsb_exists. exists x. split; [assumption|apply Nat.eqb_refl].
    - apply negb_true_iff. destruct (existsb (Nat.eqb x) t) eqn:E; [|reflexivity].
      apply existsb_exists in E. destruct E as (y & I & E). apply Nat.eqb_eq in E. subst. contradiction.
  Qed.
  Lemma rest_NoDup Z : NoDup (it (set_diff F Z)).
  Proof. apply (Permutation_NoDup (Permutation_sym (it_perm _))). apply NoDup_filter. assumption. Qed.
  Lemma rest_In Z (x : nat) : In x (it (set_diff F Z)) <-> In x F /\ ~ In x Z.
  Proof.
    rewrite <- set_diff_In. split; intros H; [apply (Permutation_in _ (it_perm _))|apply (Permutation_in _ (Permutation_sym (it_perm _)))]; assumption.
  Qed.
  Lemma sort_text_In l x : In x (sort_text l) <-> In x l.
  Proof. split; intros H; [apply (Permutation_in _ (Permutation_sym (sort_text_perm l)))|apply (Permutation_in _ (sort_text_perm l))]; assumption. Qed.
  Lemma sort_text_NoDup l : NoDup l -> NoDup (sort_text l).
  Proof. apply Permutation_NoDup, sort_text_perm. Qed.

  Lemma two_combination (l XY : list nat) : NoDup l -> In XY (combinations 2 l) -> exists x y : nat, XY = [x; y] /\ x <> y /\ In x l /\ In y l.
  Proof.
    intros N H. destruct (combinations_sound l 2 XY H) as (L & I & D). specialize (D N).
    destruct XY as [|x [|y [|z r]]]; try discriminate L. exists x, y. split; [reflexivity|].
    inversion D; subst. split; [intros ->; match goal with H : ~ In _ _ |- _ => apply H end; left; reflexivity|].
    split; apply I; [left|right; left]; reflexivity.
  Qed.

  Lemma iter_tests_In t : In t (iter_tests it F) <-> is_test F t.
  Proof.
    unfold iter_tests. rewrite in_flat_map. split.
    - intros (k & Hk & H). apply in_flat_map in H. destruct H as (Z & HZ & H).
      rewrite sort_text_In in HZ. destruct (combinations_sound F k Z HZ) as (Lk & IZ & NZ). specialize (NZ HF).
      apply in_flat_map in H. destruct H as (XY & HXY & H). rewrite sort_text_In in HXY.
      destruct (two_combination _ _ (rest_NoDup Z) HXY) as (x & y & -> & Nxy & Hx & Hy).
      apply rest_In in Hx. apply rest_In in Hy. destruct H as [<- | []].
      assert (G : forall a b, a < b -> In a F /\ ~ In a Z -> In b F /\ ~ In b Z -> is_test F (Test a b (frozenset Z))).
      { intros a b Lab (Ia & Na) (Ib & Nb). split; [exact Lab|]. split; [assumption|]. split; [assumption|].
        split; [apply frozenset_strict|]. cbn [tZ tX tY]. intros z Hz. rewrite frozenset_in in Hz.
        split; [apply IZ; assumption|]. split; intros ->; contradiction. }
      unfold mk_test. destruct (Nat.ltb_spec y x); apply G; try assumption; lia.
    - destruct t as [x y Z]. intros (Lxy & Ix & Iy & SZ & HZ). cbn [tX tY tZ] in *.
      pose proof (NoDup_strict _ SZ) as NZ.
      destruct (combinations_complete F HF Z NZ) as (W & HW & PW); [intros z Hz; apply HZ; assumption|].
      assert (LZ : S (S (length Z)) <= length F).
      { apply (NoDup_incl_length (l := x :: y :: Z)).
        - constructor; [|constructor; [|assumption]].
          + intros [E | I]; [lia|]. apply HZ in I. lia.
          + intros I. apply HZ in I. lia.
        - intros z [<- | [<- | I]]; [assumption|assumption|]. apply HZ. assumption. }
      exists (length Z). split; [apply in_seq; lia|].
      apply in_flat_map. exists W. split; [apply sort_text_In; assumption|].
      assert (OW : forall v, In v W <-> In v Z).
      { intros v. split; apply Permutation_in; [assumption|apply Permutation_sym; assumption]. }
      destruct (combinations_complete (it (set_diff F W)) (rest_NoDup W) [x; y]) as (P & HP & PP).
      + constructor; [intros [E | []]; lia|constructor; [intros []|constructor]].
      + intros v [<- | [<- | []]]; apply rest_In; rewrite OW; (split; [assumption|]); intros I; apply HZ in I; lia.
      + apply in_flat_map. exists P. split; [apply sort_text_In; exact HP|].
        assert (EZ : frozenset W = Z).
        { apply strict_unique; [apply frozenset_strict|assumption|]. intros v. rewrite frozenset_in. apply OW. }
        apply Permutation_sym in PP.
        destruct (Permutation_length_2_inv PP) as [-> | ->]; left; unfold mk_test.
        * destruct (Nat.ltb_spec y x); [lia|]. congruence.
        * destruct (Nat.ltb_spec x y); [|lia]. congruence.
  Qed.

  Lemma iter_tests_NoDup : NoDup (iter_tests it F).
  Proof.
    unfold iter_tests. apply NoDup_flat; [apply seq_NoDup| |].
    - intros k _. apply NoDup_flat; [apply sort_text_NoDup, combinations_NoDup; assumption| |].
      + intros Z HZ. apply NoDup_flat; [apply sort_text_NoDup, combinations_NoDup, rest_NoDup| |].
        * intros XY HXY. destruct XY as [|? [|? [|]]]; repeat constructor; intros [].
        * intros P Q t HP HQ H1 H2. rewrite sort_text_In in HP. rewrite sort_text_In in HQ.
          destruct (two_combination _ _ (rest_NoDup Z) HP) as (x & y & -> & N1 & _).
          destruct (two_combination _ _ (rest_NoDup Z) HQ) as (a & b & -> & N2 & _).
          destruct H1 as [<- | []], H2 as [E | []].
          apply (combinations_same _ (rest_NoDup Z) 2); [assumption|assumption|].
          unfold mk_test in E. intros v. cbn [In].
          destruct (b <? a), (y <? x); assert (E1 := f_equal tX E); assert (E2 := f_equal tY E); cbn [tX tY] in E1, E2; subst; tauto.
      + intros Z W t HZ HW H1 H2. rewrite sort_text_In in HZ. rewrite sort_text_In in HW.
        apply (combinations_same _ HF k); [assumption|assumption|].
        assert (G : forall V, In t (flat_map (fun XY => match XY with [X; Y] => [mk_test X Y V] | _ => [] end)
                              (sort_text (combinations 2 (it (set_diff F V))))) -> same_set (tZ t) V).
        { intros V H. apply in_flat_map in H. destruct H as (XY & _ & H). destruct XY as [|X [|Y [|]]]; try destruct H.
          - subst t. intros v. unfold mk_test. destruct (Y <? X); apply frozenset_in.
          - contradiction. }
        intros v. rewrite <- (G Z H1 v). apply (G W H2 v).
    - intros k k' t _ _ H1 H2.
      assert (G : forall j, In t (flat_map (fun Z => flat_map (fun XY => match XY with [X; Y] => [mk_test X Y Z] | _ => [] end)
                    (sort_text (combinations 2 (it (set_diff F Z))))) (sort_text (combinations j F))) -> length (tZ t) = j).
      { intros j H. apply in_flat_map in H. destruct H as (Z & HZ & H). rewrite sort_text_In in HZ.
        destruct (combinations_sound F j Z HZ) as (L & _ & N). specialize (N HF).
        apply in_flat_map in H. destruct H as (XY & _ & H). destruct XY as [|X [|Y [|]]]; try destruct H; [|contradiction].
        subst t. assert (E : length (frozenset Z) = length Z).
        { apply Permutation_length. unfold frozenset. rewrite (nodup_fixed_point Nat.eq_dec N). apply Permutation_sym, sort_perm. }
        unfold mk_test. destruct (Y <? X); cbn [tZ]; congruence. }
      rewrite <- (G k H1). apply (G k' H2).
  Qed.
End Enumeration.
