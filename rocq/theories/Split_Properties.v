(** C40 (train/test split) and C41 (binary thresholds). *)
From Coq Require Import String QArith Qround.
From Verif Require Import Base Matrix_Model Matrix_Spec Matrix_Proofs Matrix_Properties Split_Model.
Open Scope nat_scope.

(** ** lemmas *)
Lemma sort_Z_id l : StronglySorted Z.le l -> sort_Z l = l.
Proof.
  induction 1 as [|x l Hs IH Hf]; [reflexivity|]. simpl. rewrite IH. destruct l as [|y l]; [reflexivity|].
  simpl. inversion Hf; subst. destruct (Z.leb_spec x y); [reflexivity|lia].
Qed.
Lemma of_nat_ssorted l : StronglySorted le l -> StronglySorted Z.le (map Z.of_nat l).
Proof.
  induction 1 as [|x l Hs IH Hf]; simpl; constructor; [assumption|]. rewrite Forall_forall in *.
  intros z Hz. apply in_map_iff in Hz as (y & <- & Hy). specialize (Hf _ Hy). lia.
Qed.
Lemma gather_seq n rows : Forall (fun r => r < n) rows -> py_gather (seq 0 n) (map Z.of_nat rows) = Ok rows.
Proof.
  induction 1 as [|r rows Hr HF IH]; [reflexivity|]. unfold py_gather in *. simpl. unfold py_get at 1. rewrite seq_length.
  assert (E : py_index n (Z.of_nat r) = Ok r) by (apply py_index_means; split; [assumption|left; reflexivity]).
  rewrite E. simpl. rewrite (nth_error_nth' _ 0) by (rewrite seq_length; assumption). rewrite seq_nth by assumption.
  simpl. rewrite IH. reflexivity.
Qed.

Definition editable (d : dmatrix) : Prop := dm_final d = false /\ sm_format (dm_X d) = CSR /\ sm_format (dm_Y d) = CSR.

Lemma select_view d0 d p n rows label : view_of d0 d p -> o_rows p = seq 0 n -> StronglySorted le rows ->
  Forall (fun r => r < n) rows -> rows <> [] ->
  exists d', select_rows d (map Z.of_nat rows) label = Ok d' /\ view_of d0 d' (Origin rows (o_colsX p) (o_colsY p)) /\
    (editable d -> editable d') /\ dm_label d' = (if String.eqb label "" then dm_label d else label) /\ dm_final d' = false.
Proof.
  intros V Hp Hs HF Hne. dview V. unfold select_rows.
  destruct (map Z.of_nat rows) as [|z zs] eqn:E; [destruct rows; [contradiction|discriminate]|]. rewrite <- E. clear z zs E.
  rewrite sort_Z_id by (apply of_nat_ssorted; assumption).
  rewrite (take_rows_shows _ _ _ _ _ VX), (take_rows_shows _ _ _ _ _ VY), VR, py_gather_map.
  rewrite Hp, (gather_seq n rows HF). cbn [res_map bind]. eexists. split; [reflexivity|]. split; [|split].
  - unfold view_of; simpl. repeat split; try assumption; try apply VX; try apply VY.
    rewrite Forall_forall in *. intros r Hr. apply FR. rewrite Hp. apply in_seq. specialize (HF _ Hr). lia.
  - intros (_ & E1 & E2). repeat split; assumption.
  - split; reflexivity.
Qed.
Lemma slice_cover {A} (l : list A) k : slice_to l k ++ slice_from l k = l.
Proof. apply firstn_skipn. Qed.
Lemma sort_nil l : sort_nat l = [] <-> l = [].
Proof. split; [|intros ->; reflexivity]. intros H. pose proof (sort_perm l) as P. rewrite H in P. apply Permutation_sym, Permutation_nil in P. assumption. Qed.

(** ** C40 *)
(** how many rows are requested for training: the integer part of (number of rows * fraction) *)
Definition requested (n : nat) (q : Q) : nat := Z.to_nat (Qfloor (inject_Z (Z.of_nat n) * q)).
Lemma nq_nonneg n q : (0 <= q)%Q -> (0 <= inject_Z (Z.of_nat n) * q)%Q.
Proof. intros H. apply Qmult_le_0_compat; [|assumption]. change (0#1)%Q with (inject_Z 0). rewrite <- Zle_Qle. lia. Qed.
Lemma bound_requested n q : (0 <= q)%Q -> (q <= 1)%Q ->
  slice_bound n (py_int (inject_Z (Z.of_nat n) * q)) = requested n q /\ requested n q <= n.
Proof.
  intros H0 H1. pose proof (nq_nonneg n q H0) as H. unfold py_int, requested.
  rewrite (proj2 (Qle_bool_iff _ _) H).
  assert (F0 : (0 <= Qfloor (inject_Z (Z.of_nat n) * q))%Z) by (apply (Qfloor_resp_le 0); assumption).
  assert (F1 : (Qfloor (inject_Z (Z.of_nat n) * q) <= Z.of_nat n)%Z).
  { rewrite <- (Qfloor_Z (Z.of_nat n)) at 2. apply Qfloor_resp_le.
    rewrite <- (Qmult_1_r (inject_Z (Z.of_nat n))) at 2. apply Qmult_le_l_le || idtac.
    rewrite !(Qmult_comm (inject_Z (Z.of_nat n))). apply Qmult_le_compat_r; [assumption|]. 
    change (0#1)%Q with (inject_Z 0). rewrite <- Zle_Qle. lia. }
  unfold slice_bound. destruct (Z.ltb_spec (Qfloor (inject_Z (Z.of_nat n) * q)) 0); [lia|]. lia.
Qed.

Section C40.
Variables (d : dmatrix) (q : Q) (shuffled : list nat).
Hypothesis HA : aligned d.
Hypothesis HP : Permutation shuffled (seq 0 (length (dm_row_labels d))).
Let n := length (dm_row_labels d).

Lemma shuffled_lt r : In r shuffled -> r < n.
Proof. intros H. apply (Permutation_in _ HP) in H. apply in_seq in H. unfold n. lia. Qed.
Lemma split_core d1 p : view_of d d1 p -> o_rows p = seq 0 n ->
  let k := slice_bound n (py_int (inject_Z (Z.of_nat n) * q)) in
  let train := sort_nat (firstn k shuffled) in let test := sort_nat (skipn k shuffled) in
  (firstn k shuffled <> [] -> skipn k shuffled <> [] ->
   exists a b, perform_split d1 q shuffled = Ok (Split d1 a b train test) /\
     view_of d a (Origin train (o_colsX p) (o_colsY p)) /\ view_of d b (Origin test (o_colsX p) (o_colsY p)) /\
     (editable d1 -> editable a /\ editable b) /\ dm_label a = "dataset_train"%string /\ dm_label b = "dataset_test"%string /\
     dm_final a = false /\ dm_final b = false) /\
  (firstn k shuffled = [] \/ skipn k shuffled = [] -> perform_split d1 q shuffled = Err ValueError).
Proof.
  intros V Hp k train test. pose proof V as V'. dview V'.
  assert (Hn : sm_nrows (dm_X d1) = n) by (rewrite (shows_nrows _ _ _ _ VX), Hp; apply seq_length).
  assert (Hl : length shuffled = n) by (rewrite (Permutation_length HP), seq_length; reflexivity).
  assert (L : forall l, (forall r, In r l -> In r shuffled) -> Forall (fun r => r < n) (sort_nat l)).
  { intros l Hl'. apply Forall_forall. intros r Hr. rewrite sort_in in Hr. apply shuffled_lt, Hl'; exact Hr. }
  assert (L1 : Forall (fun r => r < n) train) by (apply L; intros r Hr; rewrite <- (firstn_skipn k); apply in_app_iff; left; assumption).
  assert (L2 : Forall (fun r => r < n) test) by (apply L; intros r Hr; rewrite <- (firstn_skipn k); apply in_app_iff; right; assumption).
  unfold perform_split. rewrite Hn. unfold slice_to, slice_from. rewrite Hl. fold k. fold train test.
  split.
  - intros N1 N2.
    destruct (select_view d d1 p n train "dataset_train" V Hp (sort_sorted _) L1) as (a & Ea & Va & Ed & La & Fa); [intros E; apply (proj1 (sort_nil _)) in E; contradiction|].
    destruct (select_view d d1 p n test "dataset_test" V Hp (sort_sorted _) L2) as (b & Eb & Vb & Edb & Lb & Fb); [intros E; apply (proj1 (sort_nil _)) in E; contradiction|].
    exists a, b. rewrite Ea. cbn [bind]. rewrite Eb. cbn [bind].
    split; [reflexivity|].
    split; [exact Va|]. split; [exact Vb|]. split; [intros He; split; [apply Ed|apply Edb]; exact He|].
    split; [exact La|]. split; [exact Lb|]. split; assumption.
  - intros [E|E].
    + assert (T : train = []) by (apply sort_nil; assumption). rewrite T. reflexivity.
    + assert (T : test = []) by (apply sort_nil; assumption). rewrite T.
      destruct train as [|r train'] eqn:Et; [reflexivity|].
      destruct (select_view d d1 p n (r :: train') "dataset_train" V Hp) as (a & Ea & _); [rewrite <- Et; apply sort_sorted|assumption|discriminate|].
      rewrite Ea. reflexivity.
Qed.
End C40.

(** C40.  Whatever order random.sample shuffles the rows into, a split that returns gives training
    and testing row lists that are increasing, disjoint, together all rows, with the requested sizes;
    the two matrices show exactly those rows of the full matrix, all columns, each with its own
    label; the full matrix is untouched. *)
Theorem C40_split_is_partition d q shuffled s :
  aligned d -> Permutation shuffled (seq 0 (length (dm_row_labels d))) -> (0 <= q)%Q -> (q <= 1)%Q ->
  perform_split d q shuffled = Ok s ->
  s_full s = d /\
  StronglySorted lt (s_train_rows s) /\ StronglySorted lt (s_test_rows s) /\
  (forall r, In r (s_train_rows s) -> ~ In r (s_test_rows s)) /\
  (forall r, r < length (dm_row_labels d) <-> In r (s_train_rows s) \/ In r (s_test_rows s)) /\
  length (s_train_rows s) = requested (length (dm_row_labels d)) q /\
  length (s_test_rows s) = length (dm_row_labels d) - requested (length (dm_row_labels d)) q /\
  view_of d (s_train s) (Origin (s_train_rows s) (seq 0 (length (dm_labels_X d))) (seq 0 (length (dm_labels_Y d)))) /\
  view_of d (s_test s) (Origin (s_test_rows s) (seq 0 (length (dm_labels_X d))) (seq 0 (length (dm_labels_Y d)))) /\
  dm_final (s_train s) = false /\ dm_final (s_test s) = false.
Proof.
  intros HA HP H0 H1 E. pose proof (C36_starts_aligned d HA) as V.
  set (n := length (dm_row_labels d)) in *.
  destruct (split_core d q shuffled HP d (everything d) V eq_refl) as [S1 S2]. fold n in S1, S2.
  destruct (bound_requested n q H0 H1) as [B1 B2]. rewrite B1 in S1, S2. set (k := requested n q) in *.
  assert (Hl : length shuffled = n) by (rewrite (Permutation_length HP), seq_length; reflexivity).
  destruct (firstn k shuffled) as [|x1 t1] eqn:E1; [rewrite S2 in E by auto; discriminate|]. rewrite <- E1 in *.
  destruct (skipn k shuffled) as [|x2 t2] eqn:E2; [rewrite S2 in E by auto; discriminate|]. rewrite <- E2 in *.
  destruct S1 as (a & b & Es & Va & Vb & _ & _ & _ & Fa & Fb); [rewrite E1; discriminate|rewrite E2; discriminate|].
  rewrite Es in E. inversion E; subst s; clear E. cbn [s_full s_train s_test s_train_rows s_test_rows].
  assert (ND : NoDup (firstn k shuffled ++ skipn k shuffled)).
  { rewrite firstn_skipn. eapply Permutation_NoDup; [apply Permutation_sym, HP|]. apply seq_NoDup. }
  assert (NDs : NoDup (firstn k shuffled) /\ NoDup (skipn k shuffled) /\ (forall r, In r (firstn k shuffled) -> ~ In r (skipn k shuffled))).
  { revert ND. generalize (firstn k shuffled) (skipn k shuffled). clear. intros u v. induction u as [|x u IH]; simpl; intros H.
    - repeat split; [constructor|assumption|intros r []].
    - inversion H; subst. destruct (IH H3) as (U1 & U2 & U3). repeat split.
      + constructor; [|assumption]. intros Hx. apply H2, in_app_iff. auto.
      + assumption.
      + intros r [->|Hr]; [intros Hr; apply H2, in_app_iff; auto|auto]. }
  destruct NDs as (N1 & N2 & N3).
  split; [reflexivity|]. split; [apply sort_strict; assumption|]. split; [apply sort_strict; assumption|].
  split. { intros r. rewrite !sort_in. apply N3. }
  split.
  { intros r. rewrite !sort_in. rewrite <- in_app_iff, firstn_skipn. split; intros H.
    - apply (Permutation_in _ (Permutation_sym HP)). apply in_seq. lia.
    - apply (Permutation_in _ HP) in H. apply in_seq in H. lia. }
  split. { rewrite <- (Permutation_length (sort_perm _)), firstn_length. lia. }
  split. { rewrite <- (Permutation_length (sort_perm _)), skipn_length. lia. }
  split; [exact Va|]. split; [exact Vb|]. split; assumption.
Qed.
(** the split returns exactly when both sides get at least one row; otherwise it raises ValueError *)
Theorem C40_split_succeeds_iff d q shuffled :
  aligned d -> Permutation shuffled (seq 0 (length (dm_row_labels d))) -> (0 <= q)%Q -> (q <= 1)%Q ->
  (0 < requested (length (dm_row_labels d)) q < length (dm_row_labels d) -> exists s, perform_split d q shuffled = Ok s) /\
  (~ 0 < requested (length (dm_row_labels d)) q < length (dm_row_labels d) -> perform_split d q shuffled = Err ValueError).
Proof.
  intros HA HP H0 H1. pose proof (C36_starts_aligned d HA) as V.
  set (n := length (dm_row_labels d)) in *.
  destruct (split_core d q shuffled HP d (everything d) V eq_refl) as [S1 S2]. fold n in S1, S2.
  destruct (bound_requested n q H0 H1) as [B1 B2]. rewrite B1 in S1, S2. set (k := requested n q) in *.
  assert (Hl : length shuffled = n) by (rewrite (Permutation_length HP), seq_length; reflexivity).
  split; intros Hk.
  - destruct S1 as (a & b & Es & _).
    + intros E. apply (f_equal (@length nat)) in E. rewrite firstn_length in E. simpl in E. lia.
    + intros E. apply (f_equal (@length nat)) in E. rewrite skipn_length in E. simpl in E. lia.
    + eexists; exact Es.
  - apply S2. destruct (Nat.eq_dec k 0) as [E|E]; [left; rewrite E; reflexivity|].
    right. apply skipn_all2. lia.
Qed.
Example C40_sample : perform_split sample (2#3) [2; 0; 1] =
  Ok (Split sample (DMat "dataset_train" (SMat CSR 3 [[1; 0; 2]; [1; 1; 4]]%Z) (SMat CSR 1 [[0]; [1]]%Z) [txt 100; txt 102] (dm_labels_X sample) (dm_labels_Y sample) false)
                   (DMat "dataset_test" (SMat CSR 3 [[0; 1; 3]]%Z) (SMat CSR 1 [[1]]%Z) [txt 101] (dm_labels_X sample) (dm_labels_Y sample) false) [0; 2] [1])
  /\ Permutation [2; 0; 1] (seq 0 (length (dm_row_labels sample))) /\ aligned sample.
Proof. split; [reflexivity|]. split; [|apply sample_aligned]. simpl. eapply perm_trans; [apply perm_swap|]. constructor. apply perm_swap. Qed.

(** ** C41 *)
(** the fraction of ones (the mean) of column [c] of [m] over the given rows *)
Definition fraction (m : smat) (rows : list nat) (c : nat) : Q :=
  inject_Z (zsum (map (fun r => entry m r c) rows)) / inject_Z (Z.of_nat (length rows)).
Definition within (t : thresholds) (m : smat) (rows : list nat) (c : nat) : Prop :=
  match t with None => True | Some (pmin, pmax) => (pmin <= fraction m rows c)%Q /\ (fraction m rows c <= pmax)%Q end.

Definition bad (t : thresholds) (m : smat) (rows : list nat) (c : nat) : bool :=
  match t with None => false | Some (pmin, pmax) => out_of_bounds pmin pmax (length rows) (map (fun r => entry m r c) rows) end.
Lemma bad_within t m rows c : rows <> [] -> (bad t m rows c = false <-> within t m rows c).
Proof.
  intros Hne. destruct t as [[lo hi]|]; simpl; [|tauto]. unfold out_of_bounds.
  destruct (length rows) as [|k] eqn:El; [destruct rows; [contradiction|discriminate]|].
  assert (E : (fraction m rows c == zsum (map (fun r => entry m r c) rows) # Pos.of_nat (S k))%Q).
  { unfold fraction. rewrite El. rewrite (Qmake_Qdiv _ (Pos.of_nat (S k))). rewrite <- positive_nat_Z, Nat2Pos.id by discriminate. reflexivity. }
  rewrite E. rewrite orb_false_iff, !negb_false_iff, !Qle_bool_iff. reflexivity.
Qed.

Lemma get_column_shows m0 m rows cols i c : shows m0 m rows cols -> nth_error cols i = Some c ->
  get_column m (Z.of_nat i) = Ok (map (fun r => entry m0 r c) rows).
Proof.
  intros [H1 H2] Hc. unfold get_column. rewrite H1.
  assert (E : py_index (length cols) (Z.of_nat i) = Ok i).
  { apply py_index_means. split; [apply nth_error_Some; congruence|left; reflexivity]. }
  rewrite E. cbn [bind]. rewrite H2. rewrite <- (map_map (fun r => map (fun c => entry m0 r c) cols) (fun row => nth i row 0%Z) rows) || idtac.
  rewrite (mapM_ok _ (fun row => nth i row 0%Z)).
  - rewrite map_map. f_equal. apply map_ext. intros r. apply nth_error_nth. rewrite nth_error_map, Hc. reflexivity.
  - intros row Hrow. apply in_map_iff in Hrow as (r & <- & _). rewrite nth_error_map, Hc. simpl.
    f_equal. symmetry. apply nth_error_nth. rewrite nth_error_map, Hc. reflexivity.
Qed.
Lemma columns_to_remove_shows m0 m rows cols t : shows m0 m rows cols ->
  columns_to_remove m t = Ok (filter (fun i => bad t m0 rows (nth i cols 0)) (seq 0 (length cols))).
Proof.
  intros S. unfold columns_to_remove. destruct t as [[lo hi]|].
  - rewrite (shows_nrows _ _ _ _ S). rewrite (proj1 S).
    rewrite (mapM_ok _ (fun c => (c, out_of_bounds lo hi (length rows) (map (fun r => entry m0 r (nth c cols 0)) rows)))).
    + cbn [bind]. f_equal. simpl bad. generalize (seq 0 (length cols)). intros l.
      induction l as [|i l IH]; [reflexivity|]. simpl. destruct (out_of_bounds _ _ _ _); simpl; rewrite IH; reflexivity.
    + intros i Hi. apply in_seq in Hi. rewrite (get_column_shows _ _ _ _ i (nth i cols 0) S); [reflexivity|].
      apply nth_error_nth'. lia.
  - simpl bad. f_equal. generalize (seq 0 (length cols)). intros l. induction l; [reflexivity|assumption].
Qed.
Lemma drop_from_filter (f : nat -> bool) : forall (cols pre : list nat) ps,
  (forall i, i < length cols -> mem (length pre + i) ps = f (nth i cols 0)) ->
  drop_from ps (length pre) cols = filter (fun c => negb (f c)) cols.
Proof.
  induction cols as [|c cols IH]; intros pre ps H; [reflexivity|]. rewrite drop_from_cons. simpl filter.
  pose proof (H 0) as H0'. rewrite Nat.add_0_r in H0'. simpl in H0'. rewrite H0' by lia.
  assert (IH' : drop_from ps (S (length pre)) cols = filter (fun c => negb (f c)) cols).
  { specialize (IH (pre ++ [c]) ps). rewrite app_length in IH. simpl length in IH. rewrite Nat.add_1_r in IH. apply IH.
    intros i Hi. specialize (H (S i)). simpl in H. rewrite <- H by lia. f_equal. lia. }
  rewrite IH'. destruct (f c); reflexivity.
Qed.
Lemma drop_filter (f : nat -> bool) cols ps :
  (forall i, i < length cols -> mem i ps = f (nth i cols 0)) -> drop_positions ps cols = filter (fun c => negb (f c)) cols.
Proof. intros H. apply (drop_from_filter f cols []). exact H. Qed.

Lemma mapM_index_nats n cs : Forall (fun c => c < n) cs -> mapM (py_index n) (sort_Z (map Z.of_nat cs)) = Ok (map Z.to_nat (sort_Z (map Z.of_nat cs))).
Proof.
  intros HF. apply mapM_ok. intros z Hz. apply (Permutation_in _ (Permutation_sym (sort_Z_perm _))) in Hz.
  apply in_map_iff in Hz as (c & <- & Hc). rewrite Forall_forall in HF. apply py_index_means. specialize (HF _ Hc). split; [lia|left; lia].
Qed.
Lemma mem_sorted_nats i cs : mem i (map Z.to_nat (sort_Z (map Z.of_nat cs))) = mem i cs.
Proof.
  destruct (mem i cs) eqn:E.
  - apply mem_In. apply mem_In in E. apply in_map_iff. exists (Z.of_nat i). split; [apply Nat2Z.id|].
    apply (Permutation_in _ (sort_Z_perm _)). apply in_map. assumption.
  - apply mem_false. intros H. apply mem_false in E. apply E. apply in_map_iff in H as (z & <- & Hz).
    apply (Permutation_in _ (Permutation_sym (sort_Z_perm _))) in Hz. apply in_map_iff in Hz as (c & <- & Hc). rewrite Nat2Z.id. assumption.
Qed.
Lemma nonneg_nats cs : Forall (fun z => (0 <= z)%Z) (sort_Z (map Z.of_nat cs)).
Proof.
  apply sort_nonneg. apply Forall_forall. intros z Hz. apply in_map_iff in Hz as (c & <- & _). lia.
Qed.
Lemma delete_X_view d0 d p cs (f : nat -> bool) : view_of d0 d p -> editable d ->
  (forall i, mem i cs = true <-> i < length (o_colsX p) /\ f (nth i (o_colsX p) 0) = true) ->
  exists d', delete_X d cs = Ok d' /\ view_of d0 d' (Origin (o_rows p) (filter (fun c => negb (f c)) (o_colsX p)) (o_colsY p)) /\ editable d'.
Proof.
  intros V (Hf & FXc & FYc) Hcs. dview V. unfold delete_X, delete_columns_X. rewrite Hf, delete_cols_eq by assumption. rewrite (proj1 VX).
  rewrite mapM_index_nats by (apply Forall_forall; intros c Hc; apply Hcs; apply mem_In; assumption).
  cbn [res_map try_set set_X dm_labels_X set_labels_X].
  assert (D : drop_positions (map Z.to_nat (sort_Z (map Z.of_nat cs))) (o_colsX p) = filter (fun c => negb (f c)) (o_colsX p)).
  { apply drop_filter. intros i Hi. rewrite mem_sorted_nats. destruct (f (nth i (o_colsX p) 0)) eqn:E.
    - apply Hcs. split; assumption.
    - destruct (mem i cs) eqn:E'; [|reflexivity]. apply Hcs in E' as [_ E']. congruence. }
  eexists. split; [reflexivity|]. split.
  - unfold view_of; cbn [set_X set_labels_X dm_X dm_Y dm_labels_X dm_labels_Y dm_row_labels o_rows o_colsX o_colsY]. rewrite <- D.
    split; [rewrite <- (proj1 VX); apply (shows_drop_cols _ _ _ _ _ VX)|]. split; [assumption|].
    split; [assumption|]. split; [|repeat split; try assumption; apply Forall_drop; assumption].
    rewrite (labels_not_in_drop _ _ _ _ (mapM_index_nats (length (o_colsX p)) cs (proj2 (Forall_forall _ _) (fun c Hc => proj1 (proj1 (Hcs c) (proj2 (mem_In c cs) Hc))))) (nonneg_nats cs)).
    rewrite VLX. apply drop_map.
  - repeat split; assumption.
Qed.
Lemma delete_Y_view d0 d p cs (f : nat -> bool) : view_of d0 d p -> editable d ->
  (forall i, mem i cs = true <-> i < length (o_colsY p) /\ f (nth i (o_colsY p) 0) = true) ->
  exists d', delete_Y d cs = Ok d' /\ view_of d0 d' (Origin (o_rows p) (o_colsX p) (filter (fun c => negb (f c)) (o_colsY p))) /\ editable d'.
Proof.
  intros V (Hf & FXc & FYc) Hcs. dview V. unfold delete_Y, delete_columns_Y. rewrite Hf, delete_cols_eq by assumption. rewrite (proj1 VY).
  rewrite mapM_index_nats by (apply Forall_forall; intros c Hc; apply Hcs; apply mem_In; assumption).
  cbn [res_map try_set set_Y dm_labels_Y set_labels_Y].
  assert (D : drop_positions (map Z.to_nat (sort_Z (map Z.of_nat cs))) (o_colsY p) = filter (fun c => negb (f c)) (o_colsY p)).
  { apply drop_filter. intros i Hi. rewrite mem_sorted_nats. destruct (f (nth i (o_colsY p) 0)) eqn:E.
    - apply Hcs. split; assumption.
    - destruct (mem i cs) eqn:E'; [|reflexivity]. apply Hcs in E' as [_ E']. congruence. }
  eexists. split; [reflexivity|]. split.
  - unfold view_of; cbn [set_Y set_labels_Y dm_X dm_Y dm_labels_X dm_labels_Y dm_row_labels o_rows o_colsX o_colsY]. rewrite <- D.
    split; [assumption|]. split; [rewrite <- (proj1 VY); apply (shows_drop_cols _ _ _ _ _ VY)|].
    split; [assumption|]. split; [assumption|]. split; [|repeat split; try assumption; apply Forall_drop; assumption].
    rewrite (labels_not_in_drop _ _ _ _ (mapM_index_nats (length (o_colsY p)) cs (proj2 (Forall_forall _ _) (fun c Hc => proj1 (proj1 (Hcs c) (proj2 (mem_In c cs) Hc))))) (nonneg_nats cs)).
    rewrite VLY. apply drop_map.
  - repeat split; assumption.
Qed.
Lemma mem_filter_seq (g : nat -> bool) n i : mem i (filter g (seq 0 n)) = true <-> i < n /\ g i = true.
Proof. rewrite mem_In, filter_In, in_seq. split; intros [H1 H2]; (split; [lia|assumption]). Qed.
Lemma mem_union i a b : mem i (union a b) = mem i a || mem i b.
Proof.
  destruct (mem i a || mem i b) eqn:E.
  - apply mem_In. unfold union. apply in_app_iff. rewrite filter_In, negb_true_iff, mem_false, <- !mem_In.
    destruct (mem i a); [left; reflexivity|right; split; [assumption|discriminate]].
  - apply orb_false_iff in E as [E1 E2]. apply mem_false. apply mem_false in E1, E2. unfold union. rewrite in_app_iff, filter_In. tauto.
Qed.

Section Binary.
Variables (o : binary_options) (d : dmatrix).
Hypothesis HA : aligned d.
Hypothesis HE : editable d.
Let n := length (dm_row_labels d).
Let all := seq 0 n.
Let nX := length (dm_labels_X d).
Let nY := length (dm_labels_Y d).
Definition badX (t : thresholds) (rows : list nat) (c : nat) : bool := remove_features o && bad t (dm_X d) rows c.
Definition badY (t : thresholds) (rows : list nat) (c : nat) : bool := remove_objectives o && bad t (dm_Y d) rows c.

Lemma filter_all (l : list nat) (f : nat -> bool) : (forall c, f c = true) -> filter f l = l.
Proof. intros H. induction l; simpl; [reflexivity|]. rewrite H. f_equal; assumption. Qed.

Lemma before_view : exists d1, process_before_split o d = Ok d1 /\ editable d1 /\
  view_of d d1 (Origin all (filter (fun c => negb (badX (features_full o) all c)) (seq 0 nX))
                           (filter (fun c => negb (badY (objectives_full o) all c)) (seq 0 nY))).
Proof.
  pose proof (C36_starts_aligned d HA) as V. unfold process_before_split.
  assert (S1 : exists d1, (if remove_features o then cs <- columns_to_remove (dm_X d) (features_full o) ;; delete_X d cs else Ok d) = Ok d1 /\
            editable d1 /\ view_of d d1 (Origin all (filter (fun c => negb (badX (features_full o) all c)) (seq 0 nX)) (seq 0 nY))).
  { unfold badX. destruct (remove_features o).
    - rewrite (columns_to_remove_shows _ _ _ _ (features_full o) (proj1 V)). cbn [bind andb].
      destruct (delete_X_view d d (everything d) (filter (fun i => bad (features_full o) (dm_X d) (o_rows (everything d)) (nth i (o_colsX (everything d)) 0)) (seq 0 (length (o_colsX (everything d)))))
                  (bad (features_full o) (dm_X d) all) V HE) as (d1 & E1 & V1 & E1').
      { intros i. rewrite mem_filter_seq. reflexivity. }
      exists d1. split; [exact E1|]. split; [exact E1'|exact V1].
    - exists d. split; [reflexivity|]. split; [assumption|]. cbn [andb negb]. rewrite filter_all by reflexivity. exact V. }
  destruct S1 as (d1 & -> & E1 & V1). cbn [bind]. unfold badY. destruct (remove_objectives o).
  - pose proof (proj1 (proj2 V1)) as SY. cbn [o_rows o_colsY] in SY.
    rewrite (columns_to_remove_shows _ _ _ _ (objectives_full o) SY). cbn [bind andb].
    destruct (delete_Y_view d d1 _ (filter (fun i => bad (objectives_full o) (dm_Y d) all (nth i (seq 0 nY) 0)) (seq 0 (length (seq 0 nY))))
                (bad (objectives_full o) (dm_Y d) all) V1 E1) as (d2 & E2 & V2 & E2').
    { intros i. cbn [o_colsY]. rewrite mem_filter_seq. reflexivity. }
    exists d2. split; [exact E2|]. split; [exact E2'|exact V2].
  - exists d1. split; [reflexivity|]. split; [assumption|]. cbn [andb negb]. rewrite (filter_all (seq 0 nY)) by reflexivity. exact V1.
Qed.

Definition split_views (s : split) (colsX colsY : list nat) : Prop :=
  view_of d (s_full s) (Origin all colsX colsY) /\ view_of d (s_train s) (Origin (s_train_rows s) colsX colsY) /\
  view_of d (s_test s) (Origin (s_test_rows s) colsX colsY) /\ editable (s_full s) /\ editable (s_train s) /\ editable (s_test s).

Lemma after_features_view s colsX colsY : split_views s colsX colsY ->
  exists s', after_features o s = Ok s' /\ s_train_rows s' = s_train_rows s /\ s_test_rows s' = s_test_rows s /\
    split_views s' (filter (fun c => negb (badX (features_train o) (s_train_rows s) c || badX (features_test o) (s_test_rows s) c)) colsX) colsY.
Proof.
  intros (V1 & V2 & V3 & E1 & E2 & E3). unfold after_features, badX. destruct (remove_features o).
  - rewrite (columns_to_remove_shows _ _ _ _ (features_train o) (proj1 V2)), (columns_to_remove_shows _ _ _ _ (features_test o) (proj1 V3)).
    cbn [bind o_rows o_colsX andb].
    set (cs := union _ _).
    set (f := fun c => bad (features_train o) (dm_X d) (s_train_rows s) c || bad (features_test o) (dm_X d) (s_test_rows s) c).
    assert (H : forall i, mem i cs = true <-> i < length colsX /\ f (nth i colsX 0) = true).
    { intros i. unfold cs, f. rewrite mem_union, !orb_true_iff, !mem_filter_seq. tauto. }
    destruct (delete_X_view d _ _ cs f V1 E1 H) as (d1 & F1 & W1 & D1). rewrite F1. cbn [bind].
    destruct (delete_X_view d _ _ cs f V2 E2 H) as (d2 & F2 & W2 & D2). rewrite F2. cbn [bind].
    destruct (delete_X_view d _ _ cs f V3 E3 H) as (d3 & F3 & W3 & D3). rewrite F3. cbn [bind].
    eexists. split; [reflexivity|]. split; [reflexivity|]. split; [reflexivity|].
    split; [exact W1|]. split; [exact W2|]. split; [exact W3|]. split; [exact D1|]. split; [exact D2|exact D3].
  - exists s. split; [reflexivity|]. split; [reflexivity|]. split; [reflexivity|]. cbn [andb orb negb]. rewrite filter_all by reflexivity.
    split; [exact V1|]. split; [exact V2|]. split; [exact V3|]. split; [exact E1|]. split; [exact E2|exact E3].
Qed.
Lemma after_objectives_view s colsX colsY : split_views s colsX colsY ->
  exists s', after_objectives o s = Ok s' /\ s_train_rows s' = s_train_rows s /\ s_test_rows s' = s_test_rows s /\
    split_views s' colsX (filter (fun c => negb (badY (objectives_train o) (s_train_rows s) c || badY (objectives_test o) (s_test_rows s) c)) colsY).
Proof.
  intros (V1 & V2 & V3 & E1 & E2 & E3). unfold after_objectives, badY. destruct (remove_objectives o).
  - rewrite (columns_to_remove_shows _ _ _ _ (objectives_train o) (proj1 (proj2 V2))), (columns_to_remove_shows _ _ _ _ (objectives_test o) (proj1 (proj2 V3))).
    cbn [bind o_rows o_colsY andb].
    set (cs := union _ _).
    set (f := fun c => bad (objectives_train o) (dm_Y d) (s_train_rows s) c || bad (objectives_test o) (dm_Y d) (s_test_rows s) c).
    assert (H : forall i, mem i cs = true <-> i < length colsY /\ f (nth i colsY 0) = true).
    { intros i. unfold cs, f. rewrite mem_union, !orb_true_iff, !mem_filter_seq. tauto. }
    destruct (delete_Y_view d _ _ cs f V1 E1 H) as (d1 & F1 & W1 & D1). rewrite F1. cbn [bind].
    destruct (delete_Y_view d _ _ cs f V2 E2 H) as (d2 & F2 & W2 & D2). rewrite F2. cbn [bind].
    destruct (delete_Y_view d _ _ cs f V3 E3 H) as (d3 & F3 & W3 & D3). rewrite F3. cbn [bind].
    eexists. split; [reflexivity|]. split; [reflexivity|]. split; [reflexivity|].
    split; [exact W1|]. split; [exact W2|]. split; [exact W3|]. split; [exact D1|]. split; [exact D2|exact D3].
  - exists s. split; [reflexivity|]. split; [reflexivity|]. split; [reflexivity|]. cbn [andb orb negb]. rewrite filter_all by reflexivity.
    split; [exact V1|]. split; [exact V2|]. split; [exact V3|]. split; [exact E1|]. split; [exact E2|exact E3].
Qed.
End Binary.

(** C41.  For every dataset, option set, fraction and shuffle: the split returns (exactly when both
    sides get at least one row), the full, training and testing matrices keep the same columns, each
    with its original label and data, in the original order, and the kept columns are exactly those
    that satisfy every configured bound: on all rows, on the training rows and on the testing rows.
    The rows are split as without thresholds. *)
Theorem C41_same_columns_within_bounds o d q shuffled :
  aligned d -> editable d -> Permutation shuffled (seq 0 (length (dm_row_labels d))) -> (0 <= q)%Q -> (q <= 1)%Q ->
  0 < requested (length (dm_row_labels d)) q < length (dm_row_labels d) ->
  exists s s0 colsX colsY,
    perform_binary_split o d q shuffled = Ok s /\ perform_split d q shuffled = Ok s0 /\
    s_train_rows s = s_train_rows s0 /\ s_test_rows s = s_test_rows s0 /\
    StronglySorted lt colsX /\ StronglySorted lt colsY /\
    view_of d (s_full s) (Origin (seq 0 (length (dm_row_labels d))) colsX colsY) /\
    view_of d (s_train s) (Origin (s_train_rows s) colsX colsY) /\
    view_of d (s_test s) (Origin (s_test_rows s) colsX colsY) /\
    (forall c, In c colsX <-> c < length (dm_labels_X d) /\
       (remove_features o = true -> within (features_full o) (dm_X d) (seq 0 (length (dm_row_labels d))) c /\
                                    within (features_train o) (dm_X d) (s_train_rows s) c /\
                                    within (features_test o) (dm_X d) (s_test_rows s) c)) /\
    (forall c, In c colsY <-> c < length (dm_labels_Y d) /\
       (remove_objectives o = true -> within (objectives_full o) (dm_Y d) (seq 0 (length (dm_row_labels d))) c /\
                                      within (objectives_train o) (dm_Y d) (s_train_rows s) c /\
                                      within (objectives_test o) (dm_Y d) (s_test_rows s) c)).
Proof.
  intros HA HE HP H0 H1 Hk. set (n := length (dm_row_labels d)) in *.
  destruct (proj1 (C40_split_succeeds_iff d q shuffled HA HP H0 H1) Hk) as (s0 & E0).
  destruct (before_view o d HA HE) as (d1 & Eb & Ed1 & V1).
  pose proof (C36_starts_aligned d HA) as V0.
  destruct (split_core d q shuffled HP d _ V0 eq_refl) as [T1 T2].
  destruct (split_core d q shuffled HP d1 _ V1 eq_refl) as [S1 _]. fold n in S1, T1, T2.
  destruct (bound_requested n q H0 H1) as [B1 B2]. rewrite B1 in S1, T1, T2. set (k := requested n q) in *.
  assert (Hl : length shuffled = n) by (rewrite (Permutation_length HP), seq_length; reflexivity).
  assert (N1 : firstn k shuffled <> []).
  { intros E. apply (f_equal (@length nat)) in E. rewrite firstn_length in E. simpl in E. lia. }
  assert (N2 : skipn k shuffled <> []).
  { intros E. apply (f_equal (@length nat)) in E. rewrite skipn_length in E. simpl in E. lia. }
  destruct (T1 N1 N2) as (a0 & b0 & Es0 & _). destruct (S1 N1 N2) as (a & b & Es & Va & Vb & Eab & _).
  rewrite Es0 in E0. inversion E0; subst s0; clear E0. cbn [s_train_rows s_test_rows].
  set (train := sort_nat (firstn k shuffled)) in *. set (test := sort_nat (skipn k shuffled)) in *.
  cbn [o_colsX o_colsY] in Va, Vb.
  set (cX := filter (fun c => negb (badX o d (features_full o) (seq 0 n) c)) (seq 0 (length (dm_labels_X d)))) in *.
  set (cY := filter (fun c => negb (badY o d (objectives_full o) (seq 0 n) c)) (seq 0 (length (dm_labels_Y d)))) in *.
  assert (SV : split_views d (Split d1 a b train test) cX cY).
  { unfold split_views. cbn [s_full s_train s_test s_train_rows s_test_rows]. destruct (Eab Ed1). repeat (split; [assumption|]). assumption. }
  destruct (after_features_view o d _ _ _ SV) as (s1 & F1 & R1 & R1' & SV1). cbn [s_train_rows s_test_rows] in R1, R1', SV1.
  destruct (after_objectives_view o d _ _ _ SV1) as (s2 & F2 & R2 & R2' & SV2). rewrite R1, R1' in *.
  destruct SV2 as (W1 & W2 & W3 & _). rewrite R2 in W2. rewrite R2' in W3.
  set (fX := filter _ cX) in *. set (fY := filter _ cY) in *.
  exists s2, (Split d a0 b0 train test), fX, fY.
  assert (NT : train <> []) by (intros E; apply (proj1 (sort_nil _)) in E; contradiction).
  assert (NE : test <> []) by (intros E; apply (proj1 (sort_nil _)) in E; contradiction).
  assert (NA : seq 0 n <> []) by (intros E; apply (f_equal (@length nat)) in E; rewrite seq_length in E; simpl in E; lia).
  split. { unfold perform_binary_split. rewrite Eb. cbn [bind]. rewrite Es. cbn [bind]. rewrite F1. cbn [bind]. exact F2. }
  split; [exact Es0|]. cbn [s_train_rows s_test_rows]. rewrite R2, R2'.
  split; [reflexivity|]. split; [reflexivity|].
  split; [unfold fX, cX; apply filter_ssorted, filter_ssorted, seq_ssorted|].
  split; [unfold fY, cY; apply filter_ssorted, filter_ssorted, seq_ssorted|].
  split; [exact W1|]. split; [exact W2|]. split; [exact W3|].
  split; intros c.
  - unfold fX, cX. rewrite !filter_In, in_seq, !negb_true_iff, orb_false_iff. unfold badX.
    rewrite <- (bad_within (features_full o) (dm_X d) (seq 0 n) c NA), <- (bad_within (features_train o) (dm_X d) train c NT), <- (bad_within (features_test o) (dm_X d) test c NE).
    destruct (remove_features o); cbn [andb]; split.
    + intros ((Hc & A1) & A2 & A3). split; [lia|]. tauto.
    + intros (Hc & A). destruct (A eq_refl) as (A1 & A2 & A3). split; [split; [lia|assumption]|split; assumption].
    + intros ((Hc & _) & _). split; [lia|discriminate].
    + intros (Hc & _). split; [split; [lia|reflexivity]|split; reflexivity].
  - unfold fY, cY. rewrite !filter_In, in_seq, !negb_true_iff, orb_false_iff. unfold badY.
    rewrite <- (bad_within (objectives_full o) (dm_Y d) (seq 0 n) c NA), <- (bad_within (objectives_train o) (dm_Y d) train c NT), <- (bad_within (objectives_test o) (dm_Y d) test c NE).
    destruct (remove_objectives o); cbn [andb]; split.
    + intros ((Hc & A1) & A2 & A3). split; [lia|]. tauto.
    + intros (Hc & A). destruct (A eq_refl) as (A1 & A2 & A3). split; [split; [lia|assumption]|split; assumption].
    + intros ((Hc & _) & _). split; [lia|discriminate].
    + intros (Hc & _). split; [split; [lia|reflexivity]|split; reflexivity].
Qed.

Example C41_sample :
  let o := BinOpts true (Some (1#3, 9#10)) (Some (3#4, 1#1)) None false None None None in
  let d := DMat "s" (SMat CSR 3 [[1; 0; 1]; [0; 0; 1]; [1; 0; 1]; [1; 1; 0]]%Z) (SMat CSR 1 [[0]; [1]; [1]; [0]]%Z)
             [txt 100; txt 101; txt 102; txt 103] [txt 200; txt 201; txt 202] [txt 300] false in
  aligned d /\ editable d /\
  exists s, perform_binary_split o d (1#2) [3; 0; 2; 1] = Ok s /\ dm_labels_X (s_full s) = [txt 200] /\ dm_labels_X (s_test s) = [txt 200].
Proof.
  cbv zeta. split; [repeat split; repeat constructor|]. split; [repeat split|]. eexists. split; [vm_compute; reflexivity|]. split; reflexivity.
Qed.

(** ** Any fraction *)
(** How many rows are trained on for an arbitrary fraction: a fraction of 1 or more takes all rows; a
    negative one takes all rows but the integer part of (number of rows * -fraction), none if that
    is zero or all. *)
Definition train_count (n : nat) (q : Q) : nat :=
  if Qle_bool 0 q then Nat.min n (Z.to_nat (Qfloor (inject_Z (Z.of_nat n) * q)))
  else match Z.to_nat (Qfloor (inject_Z (Z.of_nat n) * - q)) with O => O | m => n - m end.
Lemma bound_any n q : slice_bound n (py_int (inject_Z (Z.of_nat n) * q)) = train_count n q.
Proof.
  unfold train_count, py_int. destruct (Qle_bool 0 q) eqn:E0.
  - apply Qle_bool_iff in E0. assert (N := nq_nonneg n q E0). rewrite (proj2 (Qle_bool_iff _ _) N). unfold slice_bound.
    assert (F : (0 <= Qfloor (inject_Z (Z.of_nat n) * q))%Z) by (change 0%Z with (Qfloor 0); apply Qfloor_resp_le; exact N).
    destruct (Z.ltb_spec (Qfloor (inject_Z (Z.of_nat n) * q)) 0); lia.
  - assert (Hq : (q < 0)%Q) by (apply Qnot_le_lt; intros H; apply Qle_bool_iff in H; congruence).
    assert (M : (- (inject_Z (Z.of_nat n) * q) == inject_Z (Z.of_nat n) * - q)%Q) by ring.
    assert (F : Qfloor (inject_Z (Z.of_nat n) * - q) = Qfloor (- (inject_Z (Z.of_nat n) * q))) by (apply Qfloor_comp; symmetry; exact M).
    assert (N : (0 <= inject_Z (Z.of_nat n) * - q)%Q) by (apply nq_nonneg; apply Qlt_le_weak in Hq; apply Qopp_le_compat in Hq; exact Hq).
    assert (F0 : (0 <= Qfloor (inject_Z (Z.of_nat n) * - q))%Z) by (change 0%Z with (Qfloor 0); apply Qfloor_resp_le; exact N).
    destruct (Qle_bool 0 (inject_Z (Z.of_nat n) * q)) eqn:E1.
    + apply Qle_bool_iff in E1. assert (Z0 : (inject_Z (Z.of_nat n) * - q == 0)%Q).
      { apply Qle_antisym; [|exact N]. rewrite <- M. apply Qopp_le_compat in E1. exact E1. }
      rewrite (Qfloor_comp _ _ Z0). assert (Z1 : (inject_Z (Z.of_nat n) * q == 0)%Q).
      { apply Qle_antisym; [|exact E1]. rewrite <- M in N. apply Qopp_le_compat in N. rewrite Qopp_involutive in N. exact N. }
      rewrite (Qfloor_comp _ _ Z1). reflexivity.
    + unfold Qceiling. rewrite <- F. set (f := Qfloor (inject_Z (Z.of_nat n) * - q)) in *. unfold slice_bound. destruct (Z.to_nat f) as [|m] eqn:Em.
      * assert (f = 0%Z) by lia. rewrite H. reflexivity.
      * destruct (Z.ltb_spec (- f) 0); [|lia]. lia.
Qed.
(** For every fraction whatsoever: the split returns exactly when 0 < train_count < number of rows, and
    then it is a partition with that many training rows; otherwise ValueError. *)
Theorem C40_any_fraction : forall d q shuffled,
  aligned d -> Permutation shuffled (seq 0 (length (dm_row_labels d))) ->
  let n := length (dm_row_labels d) in
  (0 < train_count n q < n -> exists s, perform_split d q shuffled = Ok s /\
     length (s_train_rows s) = train_count n q /\ Permutation (s_train_rows s ++ s_test_rows s) (seq 0 n) /\
     view_of d (s_train s) (Origin (s_train_rows s) (seq 0 (length (dm_labels_X d))) (seq 0 (length (dm_labels_Y d)))) /\
     view_of d (s_test s) (Origin (s_test_rows s) (seq 0 (length (dm_labels_X d))) (seq 0 (length (dm_labels_Y d))))) /\
  (~ 0 < train_count n q < n -> perform_split d q shuffled = Err ValueError).
Proof.
  intros d q shuffled HA HP n. pose proof (C36_starts_aligned d HA) as V.
  destruct (split_core d q shuffled HP d (everything d) V eq_refl) as [S1 S2]. fold n in S1, S2. rewrite bound_any in S1, S2. set (k := train_count n q) in *.
  assert (Hl : length shuffled = n) by (rewrite (Permutation_length HP), seq_length; reflexivity).
  split; intros Hk.
  - destruct S1 as (a & b & Es & Va & Vb & _).
    + intros E. apply (f_equal (@length nat)) in E. rewrite firstn_length in E. simpl in E. lia.
    + intros E. apply (f_equal (@length nat)) in E. rewrite skipn_length in E. simpl in E. lia.
    + exists (Split d a b (sort_nat (firstn k shuffled)) (sort_nat (skipn k shuffled))). cbn [s_train s_test s_train_rows s_test_rows]. split; [exact Es|].
      split; [rewrite <- (Permutation_length (sort_perm _)), firstn_length; lia|]. split; [|split; [exact Va|exact Vb]].
      rewrite <- (sort_perm (firstn k shuffled)), <- (sort_perm (skipn k shuffled)), firstn_skipn. exact HP.
  - apply S2. destruct (Nat.eq_dec k 0) as [E|E]; [left; rewrite E; reflexivity|]. right. apply skipn_all2. lia.
Qed.
(** minus one half trains on one half, and -1/100 of four rows on none: ValueError *)
Example C40_negative : train_count 4 (-1#2) = 2 /\ train_count 4 (-1#100) = 0 /\ train_count 4 (3#2) = 4. Proof. repeat split. Qed.

(** With thresholds the split raises ValueError in exactly the cases in which it does without. *)
Theorem C41_otherwise_refused : forall o d q shuffled,
  aligned d -> editable d -> Permutation shuffled (seq 0 (length (dm_row_labels d))) -> (0 <= q)%Q -> (q <= 1)%Q ->
  ~ 0 < requested (length (dm_row_labels d)) q < length (dm_row_labels d) -> perform_binary_split o d q shuffled = Err ValueError.
Proof.
  intros o d q shuffled HA HE HP H0 H1 Hk. destruct (before_view o d HA HE) as (d1 & Eb & _ & V1). unfold perform_binary_split. rewrite Eb. cbn [bind].
  destruct (split_core d q shuffled HP d1 _ V1 eq_refl) as [_ S2]. destruct (bound_requested (length (dm_row_labels d)) q H0 H1) as [B1 B2]. rewrite B1 in S2.
  assert (Hl : length shuffled = length (dm_row_labels d)) by (rewrite (Permutation_length HP), seq_length; reflexivity).
  rewrite S2; [reflexivity|]. destruct (Nat.eq_dec (requested (length (dm_row_labels d)) q) 0) as [E|E]; [left; rewrite E; reflexivity|]. right. apply skipn_all2. lia.
Qed.
(** Before the split, the bounds on the whole dataset remove exactly the columns outside them; from a
    dataset without rows they remove nothing. *)
Theorem C41_before_the_split : forall o d, aligned d -> editable d ->
  exists d' colsX colsY, process_before_split o d = Ok d' /\ view_of d d' (Origin (seq 0 (length (dm_row_labels d))) colsX colsY) /\
    (dm_row_labels d = [] -> colsX = seq 0 (length (dm_labels_X d)) /\ colsY = seq 0 (length (dm_labels_Y d))) /\
    (dm_row_labels d <> [] ->
     (forall c, In c colsX <-> c < length (dm_labels_X d) /\ (remove_features o = true -> within (features_full o) (dm_X d) (seq 0 (length (dm_row_labels d))) c)) /\
     (forall c, In c colsY <-> c < length (dm_labels_Y d) /\ (remove_objectives o = true -> within (objectives_full o) (dm_Y d) (seq 0 (length (dm_row_labels d))) c))).
Proof.
  intros o d HA HE. destruct (before_view o d HA HE) as (d1 & Eb & _ & V1). eexists _, _, _. split; [exact Eb|]. split; [exact V1|]. split.
  - intros E0. rewrite E0. cbn [length seq]. assert (B : forall t m c, bad t m [] c = false) by (intros [(a, b)|] m c; reflexivity).
    split; apply filter_all; intros c; [unfold badX|unfold badY]; rewrite B, andb_false_r; reflexivity.
  - intros Hne. assert (NA : seq 0 (length (dm_row_labels d)) <> []) by (destruct (dm_row_labels d); [contradiction|discriminate]).
    split; intros c; rewrite filter_In, in_seq, negb_true_iff.
    + unfold badX. rewrite <- (bad_within (features_full o) (dm_X d) _ c NA). destruct (remove_features o); cbn [andb]; split; intros (A & B); (split; [lia|]); auto. intros X; discriminate X.
    + unfold badY. rewrite <- (bad_within (objectives_full o) (dm_Y d) _ c NA). destruct (remove_objectives o); cbn [andb]; split; intros (A & B); (split; [lia|]); auto. intros X; discriminate X.
Qed.
Example C41_no_rows : let d := DMat "s" (SMat CSR 1 []) (SMat CSR 1 []) [] [txt 200] [txt 300] false in aligned d /\ editable d /\ dm_row_labels d = [].
Proof. repeat split; repeat constructor. Qed.
