(** Bounds on the degrees of freedom; an expected result is unique. *)
From Coq Require Import Reals Lra.
From Verif Require Import Base AD_Model AD_Spec Prob_Spec Prob_Proofs SameInfo_Proofs MB_Model MB_Cache_Proofs GTest_Model GTest_Spec GTest_Tables_Proofs
  GTest_DoF_Proofs GTest_Cache_Proofs.
Open Scope Z_scope.

Section Bounds.
  Variable D : dataset.
  Hypothesis WF : wf_dataset D.
  Definition vals (c : nat) : list Z := match colvals D c with Some vs => vs | None => [] end.
  Fixpoint tuples (cols : list nat) : list (list Z) :=
    match cols with [] => [[]] | c :: cs => flat_map (fun x => map (cons x) (tuples cs)) (vals c) end.
  Lemma flat_map_const {A B} (f : A -> list B) l n : (forall x, In x l -> length (f x) = n) -> length (flat_map f l) = (length l * n)%nat.
  Proof. induction l as [|x l IH]; intros H; simpl; [reflexivity|]. rewrite app_length, IH, H; simpl; auto. intros; apply H; simpl; auto. Qed.
  Lemma tuples_length cols : Z.of_nat (length (tuples cols)) = fold_right (fun c acc => declared D c * acc) 1 cols.
  Proof.
    induction cols as [|c cs IH]; [reflexivity|]. cbn [tuples fold_right]. rewrite (flat_map_const _ _ (length (tuples cs))) by (intros; apply map_length).
    rewrite Nat2Z.inj_mul, IH. f_equal. unfold declared, vals. destruct (colvals D c); reflexivity.
  Qed.
  Lemma value_in row c : In row (rows D) -> (c < ncols D)%nat -> In (nth c row 0) (vals c).
  Proof.
    intros Hr Hc. destruct (wf_vals D WF c Hc) as (vs & E & _ & _ & H). unfold vals. rewrite E. apply (H row); [assumption|].
    apply nth_error_nth'. apply (row_width D WF); assumption.
  Qed.
  Lemma proj_in row cols : In row (rows D) -> (forall c, In c cols -> (c < ncols D)%nat) -> In (proj cols row) (tuples cols).
  Proof.
    intros Hr. induction cols as [|c cs IH]; intros Hc; [left; reflexivity|]. cbn [tuples]. apply in_flat_map. exists (nth c row 0).
    split; [apply value_in; auto with datatypes|]. apply (in_map (cons (nth c row 0))). apply IH. intros; apply Hc; right; assumption.
  Qed.
  Lemma distinct_bound cols rs : incl rs (rows D) -> (forall c, In c cols -> (c < ncols D)%nat) ->
    Z.of_nat (length (distinct cols rs)) <= fold_right (fun c acc => declared D c * acc) 1 cols.
  Proof.
    intros Hi Hc. rewrite <- tuples_length. apply inj_le. apply NoDup_incl_length; [apply NoDup_nodup|].
    intros v Hv. apply nodup_In in Hv. apply in_map_iff in Hv as (row & <- & Hin). apply proj_in; auto.
  Qed.
  Lemma distinct_pos cols rs : rs <> [] -> 1 <= Z.of_nat (length (distinct cols rs)).
  Proof.
    intros H. destruct rs as [|r rs]; [congruence|]. unfold distinct.
    assert (Hin : In (proj cols r) (nodup (list_eq_dec Z.eq_dec) (map (proj cols) (r :: rs)))) by (apply nodup_In; left; reflexivity).
    destruct (nodup _ _); [destruct Hin|simpl; lia].
  Qed.
  Lemma zsum_bound {A} (f : A -> Z) (l : list A) b : (forall x, In x l -> f x <= b) -> zsum (map f l) <= Z.of_nat (length l) * b.
  Proof.
    unfold zsum. induction l as [|x l IH]; intros H; [simpl; lia|]. cbn [map fold_right length].
    pose proof (H x (or_introl eq_refl)). assert (IH' := IH (fun y Hy => H y (or_intror Hy))). rewrite Nat2Z.inj_succ. lia.
  Qed.
  Lemma zsum_nonneg {A} (f : A -> Z) (l : list A) : (forall x, In x l -> 0 <= f x) -> 0 <= zsum (map f l).
  Proof.
    unfold zsum. induction l as [|x l IH]; intros H; [simpl; lia|]. cbn [map fold_right].
    pose proof (H x (or_introl eq_refl)). assert (IH' := IH (fun y Hy => H y (or_intror Hy))). lia.
  Qed.
  Lemma structural_bounds X Y Z : (forall c, In c (X :: Y :: Z) -> (c < ncols D)%nat) ->
    1 <= structural_dof D X Y Z <= unadjusted_dof D X Y Z.
  Proof.
    intros Hc. unfold structural_dof, unadjusted_dof. cbv zeta.
    set (f := fun z => (Z.of_nat (length (distinct [X] (filter (fun row => eqv (proj Z row) z) (rows D)))) - 1) *
                       (Z.of_nat (length (distinct [Y] (filter (fun row => eqv (proj Z row) z) (rows D)))) - 1)).
    set (b := (declared D X - 1) * (declared D Y - 1)).
    assert (Hz : forall z, In z (distinct Z (rows D)) -> 0 <= f z <= b).
    { intros z Hz. apply nodup_In in Hz. apply in_map_iff in Hz as (row & Ez & Hin). unfold f. set (rs := filter _ (rows D)).
      assert (Hne : rs <> []). { intros E. assert (Hr : In row rs) by (apply filter_In; split; [assumption|rewrite Ez; apply eqv_refl]). rewrite E in Hr. destruct Hr. }
      assert (Hi : incl rs (rows D)) by apply filter_incl'.
      pose proof (distinct_pos [X] rs Hne). pose proof (distinct_pos [Y] rs Hne).
      assert (HX := distinct_bound [X] rs Hi ltac:(intros c [<-|[]]; apply Hc; simpl; auto)).
      assert (HY := distinct_bound [Y] rs Hi ltac:(intros c [<-|[]]; apply Hc; simpl; auto)). cbn [fold_right] in HX, HY. rewrite Z.mul_1_r in HX, HY. unfold b. nia. }
    set (s := zsum (map f (distinct Z (rows D)))).
    assert (Hs0 : 0 <= s) by (apply zsum_nonneg; intros z Hin; apply Hz; assumption).
    assert (Hs : s <= Z.of_nat (length (distinct Z (rows D))) * b) by (apply zsum_bound; intros z Hin; apply Hz; assumption).
    assert (HZ := distinct_bound Z (rows D) (incl_refl _) (fun c H => Hc c (or_intror (or_intror H)))).
    set (m := fold_right _ _ _) in *. set (k := Z.of_nat (length (distinct Z (rows D)))) in *. assert (Hk : 0 <= k) by lia.
    assert (Hb : 0 <= b).
    { unfold b. destruct (wf_vals D WF X) as (vx & Ex & _ & Nx & _); [apply Hc; simpl; auto|]. destruct (wf_vals D WF Y) as (vy & Ey & _ & Ny & _); [apply Hc; simpl; auto|].
      unfold declared. rewrite Ex, Ey. destruct vx; [congruence|]. destruct vy; [congruence|]. simpl length. nia. }
    fold b. assert (s <= b * m) by nia.
    destruct (Z.eqb_spec s 0), (Z.eqb_spec (b * m) 0); lia.
  Qed.
End Bounds.
Lemma structural_sym D X Y Z : structural_dof D X Y Z = structural_dof D Y X Z.
Proof. rewrite !structural_dof_sdof. rewrite sdof_sym. reflexivity. Qed.
Lemma structural_set D X Y Z Z' : (forall c, In c Z <-> In c Z') -> structural_dof D X Y Z = structural_dof D X Y Z'.
Proof. intros H. rewrite !structural_dof_sdof. f_equal. apply sdof_same; [apply same_info_refl..|apply proj_same; assumption]. Qed.

Lemma expected_unique D p kind kind' n X Y Z r r' : dof_for D kind X Y Z = dof_for D kind' X Y Z ->
  expected_result D p kind n X Y Z r -> expected_result D p kind' n X Y Z r' -> r = r'.
Proof.
  intros Ed (A1 & A2 & A3 & A4 & A5 & A6 & A7) (B1 & B2 & B3 & B4 & B5 & B6 & B7). rewrite <- Ed in *. set (dof := dof_for D kind X Y Z) in *.
  destruct r as [i x y z b g q d], r' as [i' x' y' z' b' g' q' d']. cbn in *. subst.
  destruct (enough D p dof).
  - destruct (A6 eq_refl) as (-> & -> & b1 & -> & H1). destruct (B6 eq_refl) as (-> & -> & b2 & -> & H2).
    assert (b1 = b2) by (destruct b1, b2; try reflexivity; [symmetry|]; tauto). congruence.
  - destruct (A7 eq_refl) as (-> & -> & ->). destruct (B7 eq_refl) as (-> & -> & ->). reflexivity.
Qed.
Lemma outcome_unique D p kind kind' t o o' : dof_for D kind (fst (fst t)) (snd (fst t)) (snd t) = dof_for D kind' (fst (fst t)) (snd (fst t)) (snd t) ->
  expected_outcome D p kind t o -> expected_outcome D p kind' t o' -> o = o'.
Proof.
  destruct t as [[X Y] Z]. cbn [fst snd]. intros Ed. unfold expected_outcome. rewrite <- Ed. destruct o as [b|], o' as [b'|]; try (intros (A & _) B; congruence); try (intros A (B & _); congruence); auto.
  intros (_ & H1) (_ & H2). f_equal. destruct b, b'; try reflexivity; [symmetry|]; tauto.
Qed.
