(** C67: equality of datasets, lookup by label, values per column. *)
From Coq Require Import String.
From Verif Require Import Base Matrix_Model Matrix_Spec Matrix_Proofs Matrix_Properties AD_Model AD_Query_Model AD_Spec AD_Properties DMQuery_Model DMQuery_Spec.
Open Scope nat_scope.

Ltac deq := repeat match goal with |- context [if ?b then _ else _] => destruct b eqn:? end; try reflexivity; try discriminate.
Lemma labels_eqb_iff a b : labels_eqb a b = true <-> a = b.
Proof. unfold labels_eqb. match goal with |- context [list_eq_dec ?d a b] => destruct (list_eq_dec d a b) end; split; congruence. Qed.
Lemma label_eqb_iff a b : label_eqb a b = true <-> a = b.
Proof. unfold label_eqb. match goal with |- context [list_eq_dec ?d a b] => destruct (list_eq_dec d a b) end; split; congruence. Qed.

Lemma filter_nil_iff {A} (f : A -> bool) l : filter f l = [] <-> forall x, In x l -> f x = false.
Proof.
  induction l as [|a l IH]; cbn [filter]; [split; [intros _ x []|reflexivity]|].
  destruct (f a) eqn:E.
  - split; [discriminate|]. intro H. specialize (H a (or_introl eq_refl)). congruence.
  - rewrite IH. split; intros H x; [intros [<- | I]; auto|auto using in_cons].
Qed.
Lemma count_different_0 m1 m2 : count_different m1 m2 = 0 <-> same_table m1 m2 (sm_nrows m1) (sm_ncols m1).
Proof.
  unfold count_different, same_table. rewrite length_zero_iff_nil, filter_nil_iff. split.
  - intros H r c Hr Hc. specialize (H (r, c)). cbn in H.
    assert (I : In (r, c) (list_prod (seq 0 (sm_nrows m1)) (seq 0 (sm_ncols m1)))).
    { apply in_prod_iff. rewrite !in_seq. lia. }
    apply H in I. apply negb_false_iff, Z.eqb_eq in I. exact I.
  - intros H [r c] I. cbn. apply in_prod_iff in I. rewrite !in_seq in I. apply negb_false_iff, Z.eqb_eq. apply H; lia.
Qed.
Lemma sparse_equal_iff m1 m2 : sparse_equal m1 m2 = true <->
  sm_nrows m1 = sm_nrows m2 /\ sm_ncols m1 = sm_ncols m2 /\ same_table m1 m2 (sm_nrows m1) (sm_ncols m1).
Proof.
  unfold sparse_equal. rewrite <- count_different_0.
  destruct (Nat.eqb_spec (sm_nrows m1) (sm_nrows m2)); destruct (Nat.eqb_spec (sm_ncols m1) (sm_ncols m2)); cbn;
    try (split; [discriminate|]; intros (? & ? & ?); congruence).
  destruct (Nat.eqb_spec (count_different m1 m2) 0); cbn; split; try tauto; try discriminate.
Qed.
Lemma dm_eqb_iff d e : dm_eqb d e = true <->
  dm_row_labels d = dm_row_labels e /\ dm_labels_X d = dm_labels_X e /\ dm_labels_Y d = dm_labels_Y e /\
  sparse_equal (dm_X d) (dm_X e) = true /\ sparse_equal (dm_Y d) (dm_Y e) = true.
Proof.
  unfold dm_eqb. rewrite <- !labels_eqb_iff.
  destruct (labels_eqb (dm_row_labels d) (dm_row_labels e)), (labels_eqb (dm_labels_X d) (dm_labels_X e)),
    (labels_eqb (dm_labels_Y d) (dm_labels_Y e)), (sparse_equal (dm_X d) (dm_X e)), (sparse_equal (dm_Y d) (dm_Y e)); cbn;
    split; try tauto; try discriminate; intros (? & ? & ? & ? & ?); discriminate.
Qed.

(** C67.  Two datasets are == exactly when they have the same labels and the same entries,
    whatever their names, storage formats and final flags. *)
Theorem C67_equal_iff_same_data d e : aligned d -> aligned e -> (dm_eqb d e = true <-> same_data d e).
Proof.
  intros ((RX & CX & _) & (RY & CY & _)) ((RX' & CX' & _) & (RY' & CY' & _)).
  rewrite dm_eqb_iff, !sparse_equal_iff. unfold same_data, sm_nrows in *. rewrite RX, RX', RY, RY', CX, CX', CY, CY'.
  split.
  - intros (A & B & C & (_ & _ & D) & (_ & _ & E)). auto.
  - intros (A & B & C & D & E). rewrite A, B, C in *. repeat split; auto.
Qed.

(** == is an equivalence relation on all datasets, aligned or not *)
Theorem C67_equivalence :
  (forall d, dm_eqb d d = true) /\
  (forall d e, dm_eqb d e = dm_eqb e d) /\
  (forall d e f, dm_eqb d e = true -> dm_eqb e f = true -> dm_eqb d f = true).
Proof.
  assert (T : forall d e f, dm_eqb d e = true -> dm_eqb e f = true -> dm_eqb d f = true).
  { intros d e f. rewrite !dm_eqb_iff, !sparse_equal_iff.
    intros (A & B & C & (D1 & D2 & D3) & (E1 & E2 & E3)) (A' & B' & C' & (D1' & D2' & D3') & (E1' & E2' & E3')).
    repeat split; try congruence; intros r c Hr Hc.
    - rewrite D3, D3' by (congruence || lia). reflexivity.
    - rewrite E3, E3' by (congruence || lia). reflexivity. }
  assert (Sy : forall d e, dm_eqb d e = true -> dm_eqb e d = true).
  { intros d e. rewrite !dm_eqb_iff, !sparse_equal_iff.
    intros (A & B & C & (D1 & D2 & D3) & (E1 & E2 & E3)).
    repeat split; try congruence; intros r c Hr Hc; symmetry; [apply D3|apply E3]; congruence || lia. }
  split; [|split; [|exact T]].
  - intro d. rewrite dm_eqb_iff, !sparse_equal_iff. repeat split; reflexivity.
  - intros d e. destruct (dm_eqb d e) eqn:E1; destruct (dm_eqb e d) eqn:E2; try reflexivity; [apply Sy in E1|apply Sy in E2]; congruence.
Qed.

(** the names that diff prints: those of the parts that differ, separated by blanks; nothing exactly
    when the datasets are == *)
Theorem C67_diff_names d e : exists rl lx ly x y : bool,
  (rl = true <-> dm_row_labels d <> dm_row_labels e) /\ (lx = true <-> dm_labels_X d <> dm_labels_X e) /\
  (ly = true <-> dm_labels_Y d <> dm_labels_Y e) /\
  (x = true <-> sparse_equal (dm_X d) (dm_X e) = false) /\ (y = true <-> sparse_equal (dm_Y d) (dm_Y e) = false) /\
  dm_diff d e = String.concat " " (map snd (filter fst
    [(rl, "row_labels"); (lx, "column_labels_X"); (ly, "column_labels_Y"); (x, "X"); (y, "Y")]))%string.
Proof.
  exists (negb (labels_eqb (dm_row_labels d) (dm_row_labels e))), (negb (labels_eqb (dm_labels_X d) (dm_labels_X e))),
    (negb (labels_eqb (dm_labels_Y d) (dm_labels_Y e))), (negb (sparse_equal (dm_X d) (dm_X e))), (negb (sparse_equal (dm_Y d) (dm_Y e))).
  assert (N : forall a b, negb (labels_eqb a b) = true <-> a <> b).
  { intros a b. unfold labels_eqb. match goal with |- context [list_eq_dec ?d a b] => destruct (list_eq_dec d a b) end; cbn; split; congruence. }
  split; [apply N|]. split; [apply N|]. split; [apply N|]. split; [apply negb_true_iff|]. split; [apply negb_true_iff|].
  unfold dm_diff.
  destruct (labels_eqb (dm_row_labels d) (dm_row_labels e)), (labels_eqb (dm_labels_X d) (dm_labels_X e)),
    (labels_eqb (dm_labels_Y d) (dm_labels_Y e)), (sparse_equal (dm_X d) (dm_X e)), (sparse_equal (dm_Y d) (dm_Y e)); vm_compute; reflexivity.
Qed.
Theorem C67_diff_empty d e : dm_diff d e = EmptyString <-> dm_eqb d e = true.
Proof.
  unfold dm_diff, dm_eqb.
  destruct (labels_eqb (dm_row_labels d) (dm_row_labels e)), (labels_eqb (dm_labels_X d) (dm_labels_X e)),
    (labels_eqb (dm_labels_Y d) (dm_labels_Y e)), (sparse_equal (dm_X d) (dm_X e)), (sparse_equal (dm_Y d) (dm_Y e)); vm_compute; split; congruence.
Qed.
(** finalize and unfinalize do not change the data *)
Theorem C67_finalize_equal d : dm_eqb (finalize d) d = true /\ dm_eqb (unfinalize d) d = true.
Proof.
  split; rewrite dm_eqb_iff, !sparse_equal_iff; unfold finalize, unfinalize; destruct (dm_final d); repeat split; reflexivity.
Qed.

(** ** equal datasets stay equal *)
Definition rename (n : string) (d : dmatrix) : dmatrix :=
  DMat n (dm_X d) (dm_Y d) (dm_row_labels d) (dm_labels_X d) (dm_labels_Y d) (dm_final d).
Lemma rectangular_ext m1 m2 nr nc : rectangular m1 nr nc -> rectangular m2 nr nc -> same_table m1 m2 nr nc ->
  sm_format m1 = sm_format m2 -> m1 = m2.
Proof.
  destruct m1 as [f1 n1 r1], m2 as [f2 n2 r2]. unfold rectangular, same_table, entry. cbn [sm_rows sm_ncols sm_format].
  intros (L1 & N1 & F1) (L2 & N2 & F2) E ->. f_equal; [congruence|].
  apply (nth_ext _ _ [] []); [congruence|]. intros r Hr.
  rewrite Forall_forall in F1, F2.
  assert (G1 := F1 _ (nth_In r1 [] Hr)). assert (Hr2 : r < length r2) by congruence. assert (G2 := F2 _ (nth_In r2 [] Hr2)).
  apply (nth_ext _ _ 0%Z 0%Z); [congruence|]. intros c Hc. apply E; congruence.
Qed.
Lemma equal_rename d e : aligned d -> aligned e -> dm_final d = dm_final e ->
  sm_format (dm_X d) = sm_format (dm_X e) -> sm_format (dm_Y d) = sm_format (dm_Y e) ->
  dm_eqb d e = true -> e = rename (dm_label e) d.
Proof.
  intros Ad Ae F FX FY E. apply (C67_equal_iff_same_data d e Ad Ae) in E. destruct E as (R & LX & LY & TX & TY).
  destruct Ad as (AX & AY), Ae as (BX & BY). rewrite R, LX, LY in *.
  assert (X := rectangular_ext _ _ _ _ AX BX TX FX). assert (Y := rectangular_ext _ _ _ _ AY BY TY FY).
  destruct d, e; unfold rename; cbn in *; congruence.
Qed.
Lemma rename_equal n d : dm_eqb d (rename n d) = true.
Proof. rewrite dm_eqb_iff, !sparse_equal_iff. repeat split; reflexivity. Qed.
Lemma rename_op n d o : exists n', do_op (rename n d) o = (rename n' (fst (do_op d o)), snd (do_op d o)).
Proof.
  destruct o; cbn [do_op].
  - unfold delete_row. cbn [dm_final rename dm_X]. destruct (dm_final d); [exists n; reflexivity|].
    unfold try_set. destruct (delete_rows_cols (dm_X d) [r] []); [|exists n; reflexivity].
    cbn [set_X dm_Y rename]. destruct (delete_rows_cols (dm_Y d) [r] []); [|exists n; reflexivity].
    cbn [set_Y set_X dm_row_labels rename]. destruct (py_del (dm_row_labels d) r); exists n; reflexivity.
  - unfold keep_rows. cbn [dm_final rename dm_X]. destruct (dm_final d); [exists n; reflexivity|].
    destruct rows; [exists n; reflexivity|].
    unfold try_set. match goal with |- context [delete_rows_cols (dm_X d) ?l []] => set (ll := l) end.
    destruct (delete_rows_cols (dm_X d) ll []); [|exists n; reflexivity].
    cbn [set_X dm_Y rename]. destruct (delete_rows_cols (dm_Y d) ll []); [|exists n; reflexivity].
    cbn [set_Y set_X dm_row_labels rename]. destruct (py_gather (dm_row_labels d) (z :: rows)); exists n; reflexivity.
  - unfold select_rows. destruct rows; [exists n; reflexivity|]. cbn [dm_X dm_Y rename dm_row_labels dm_label dm_labels_X dm_labels_Y bind].
    destruct (take_rows (dm_X d) _); [|exists n; reflexivity]. cbn [bind].
    destruct (take_rows (dm_Y d) _); [|exists n; reflexivity]. cbn [bind].
    destruct (py_gather (dm_row_labels d) _); [|exists n; reflexivity]. cbn [bind fst snd].
    eexists; reflexivity.
  - unfold select_columns_X. destruct cols; [exists n; reflexivity|]. cbn [dm_X dm_Y rename dm_row_labels dm_label dm_labels_X dm_labels_Y bind].
    destruct (take_cols (dm_X d) _); [|exists n; reflexivity]. cbn [bind].
    destruct (py_gather (dm_labels_X d) _); [|exists n; reflexivity]. cbn [bind fst snd].
    eexists; reflexivity.
  - unfold delete_columns_X. cbn [dm_final rename dm_X]. destruct (dm_final d); [exists n; reflexivity|].
    unfold try_set. destruct (delete_rows_cols (dm_X d) [] (sort_Z cols)); exists n; reflexivity.
  - unfold delete_columns_Y. cbn [dm_final rename dm_Y]. destruct (dm_final d); [exists n; reflexivity|].
    unfold try_set. destruct (delete_rows_cols (dm_Y d) [] (sort_Z cols)); exists n; reflexivity.
  - unfold delete_column_X. cbn [dm_final rename dm_X]. destruct (dm_final d); [exists n; reflexivity|].
    unfold try_set. destruct (delete_rows_cols (dm_X d) [] [c]); [|exists n; reflexivity].
    cbn [set_X dm_labels_X rename]. destruct (py_del (dm_labels_X d) c); exists n; reflexivity.
  - unfold delete_column_Y. cbn [dm_final rename dm_Y]. destruct (dm_final d); [exists n; reflexivity|].
    unfold try_set. destruct (delete_rows_cols (dm_Y d) [] [c]); [|exists n; reflexivity].
    cbn [set_Y dm_labels_Y rename]. destruct (py_del (dm_labels_Y d) c); exists n; reflexivity.
  - exists n. unfold finalize. cbn [dm_final rename]. destruct (dm_final d); reflexivity.
  - exists n. reflexivity.
Qed.
(** C67.  Two equal datasets in the same state (both final or both not, stored in the same format)
    behave alike: after any calls made on both they are still equal, and every further call has the
    same outcome on both. *)
Theorem C67_equal_datasets_behave_alike d e os o :
  aligned d -> aligned e -> dm_final d = dm_final e ->
  sm_format (dm_X d) = sm_format (dm_X e) -> sm_format (dm_Y d) = sm_format (dm_Y e) ->
  dm_eqb d e = true ->
  dm_eqb (run_ops d os) (run_ops e os) = true /\ snd (do_op (run_ops d os) o) = snd (do_op (run_ops e os) o).
Proof.
  intros Ad Ae F FX FY E. rewrite (equal_rename _ _ Ad Ae F FX FY E). generalize (dm_label e). clear Ae F FX FY E e Ad.
  unfold run_ops. revert d. induction os as [|o' os IH]; intros d n; cbn [fold_left].
  - split; [apply rename_equal|]. destruct (rename_op n d o) as (n' & ->). reflexivity.
  - destruct (rename_op n d o') as (n' & ->). cbn [fst]. apply IH.
Qed.

(** ** looking up columns *)
Lemma mapM_map_ok {A B C} (f : B -> res C) (g : A -> B) (h : A -> C) l :
  (forall x, In x l -> f (g x) = Ok (h x)) -> mapM f (map g l) = Ok (map h l).
Proof.
  induction l as [|x l IH]; intro H; cbn [map mapM]; [reflexivity|].
  rewrite (H x) by (left; reflexivity). cbn [bind]. rewrite IH by (intros; apply H; right; assumption). reflexivity.
Qed.
Lemma shown_column m0 m rs cs c : shows m0 m rs cs -> c < length cs ->
  get_column m (Z.of_nat c) = Ok (map (fun r => entry m0 r (nth c cs 0)) rs).
Proof.
  intros (N & R) L. unfold get_column, py_index. rewrite N.
  replace ((0 <=? Z.of_nat c)%Z && (Z.of_nat c <? Z.of_nat (length cs))%Z) with true by (symmetry; apply andb_true_iff; split; [apply Z.leb_le|apply Z.ltb_lt]; lia).
  rewrite Nat2Z.id. cbn [bind]. rewrite R. apply mapM_map_ok. intros r _.
  rewrite nth_error_map, (nth_error_nth' cs 0 L). reflexivity.
Qed.
Lemma first_position_index l labels c : first_position l labels c -> label_index l labels = Some c.
Proof.
  revert c. induction labels as [|x labels IH]; intros c (H & F); [destruct c; discriminate|].
  cbn [label_index]. destruct (label_eqb x l) eqn:E.
  - apply label_eqb_iff in E. destruct c as [|c]; [reflexivity|]. exfalso. apply (F 0); [lia|]. cbn. congruence.
  - destruct c as [|c].
    + cbn in H. injection H as ->. assert (label_eqb l l = true) by (apply label_eqb_iff; reflexivity). congruence.
    + rewrite (IH c); [reflexivity|]. split; [exact H|]. intros c' L. apply (F (Datatypes.S c')). lia.
Qed.
Lemma missing_index l labels : ~ In l labels -> label_index l labels = None.
Proof.
  induction labels as [|x labels IH]; intro H; cbn [label_index]; [reflexivity|].
  destruct (label_eqb x l) eqn:E.
  - apply label_eqb_iff in E. subst. exfalso. apply H. left; reflexivity.
  - rewrite IH; [reflexivity|]. intro I. apply H. right; exact I.
Qed.
Lemma index_first l labels c : label_index l labels = Some c -> first_position l labels c.
Proof.
  revert c. induction labels as [|x labels IH]; cbn [label_index]; intros c H; [discriminate|].
  destruct (label_eqb x l) eqn:E.
  - injection H as <-. apply label_eqb_iff in E. subst. split; [reflexivity|]. intros c' L. lia.
  - destruct (label_index l labels) as [i|]; [|discriminate]. injection H as <-. destruct (IH i eq_refl) as (A & B).
    split; [exact A|]. intros [|c'] L; cbn; [intro J; injection J as ->; assert (label_eqb l l = true) by (apply label_eqb_iff; reflexivity); congruence|apply B; lia].
Qed.
Lemma in_has_index l labels : In l labels -> exists c, label_index l labels = Some c.
Proof.
  induction labels as [|x labels IH]; intros []; cbn [label_index].
  - subst. replace (label_eqb l l) with true by (symmetry; apply label_eqb_iff; reflexivity). eexists; reflexivity.
  - destruct (label_eqb x l); [eexists; reflexivity|]. destruct (IH H) as (c & ->). eexists; reflexivity.
Qed.

Lemma aligned_side ml d m labels : aligned d -> side ml d = Some (m, labels) -> rectangular m (length (dm_row_labels d)) (length labels).
Proof.
  intros (AX & AY). unfold side. destruct (String.eqb ml "X"); [intro H; injection H as <- <-; exact AX|].
  destruct (String.eqb ml "Y"); [intro H; injection H as <- <-; exact AY|discriminate].
Qed.
Lemma side_matrix ml d : get_matrix d ml = match side ml d with Some (m, _) => Ok m | None => Err ValueError end.
Proof. unfold get_matrix, by_matrix, side. destruct (String.eqb ml "X"); [reflexivity|]. destruct (String.eqb ml "Y"); reflexivity. Qed.
Lemma side_labels ml d : get_column_labels d ml = match side ml d with Some (_, l) => Ok l | None => Err ValueError end.
Proof. unfold get_column_labels, by_matrix, side. destruct (String.eqb ml "X"); [reflexivity|]. destruct (String.eqb ml "Y"); reflexivity. Qed.

(** C67.  On an aligned dataset, counts, columns and lookups by label give what the matrix and the
    labels of the named side say; a label other than 'X' and 'Y' is refused everywhere. *)
Theorem C67_queries d ml : aligned d ->
  match side ml d with
  | None => get_matrix d ml = Err ValueError /\ get_row_count d ml = Err ValueError /\ get_column_count d ml = Err ValueError /\
      get_column_labels d ml = Err ValueError /\ get_values_per_column d ml = Err ValueError /\
      (forall c, dm_get_column d ml c = Err ValueError) /\ (forall l, get_column_by_label d ml l = Err ValueError)
  | Some (m, labels) => get_matrix d ml = Ok m /\ get_row_count d ml = Ok (length (dm_row_labels d)) /\
      get_column_count d ml = Ok (length labels) /\ get_column_labels d ml = Ok labels /\
      (forall c, c < length labels -> dm_get_column d ml (Z.of_nat c) = Ok (map (fun r => entry m r c) (seq 0 (length (dm_row_labels d))))) /\
      (forall l c, first_position l labels c ->
         get_column_by_label d ml l = Ok (map (fun r => entry m r c) (seq 0 (length (dm_row_labels d))))) /\
      (forall l, ~ In l labels -> get_column_by_label d ml l = Err ValueError)
  end.
Proof.
  intro A. unfold get_row_count, get_column_count, get_values_per_column, dm_get_column, get_column_by_label, dm_get_column.
  rewrite side_matrix, side_labels. destruct (side ml d) as [[m labels]|] eqn:S; [|cbn [bind]; repeat split; reflexivity].
  cbn [bind]. assert (R := aligned_side _ _ _ _ A S). assert (W := whole_matrix _ _ _ R). destruct R as (R1 & R2 & _).
  assert (G : forall c, c < length labels -> get_column m (Z.of_nat c) = Ok (map (fun r => entry m r c) (seq 0 (length (dm_row_labels d))))).
  { intros c L. rewrite (shown_column _ _ _ _ c W) by (rewrite seq_length; exact L). rewrite seq_nth by exact L. reflexivity. }
  split; [reflexivity|]. split; [unfold sm_nrows; congruence|]. split; [congruence|]. split; [reflexivity|]. split; [exact G|]. split.
  - intros l c F. rewrite (first_position_index _ _ _ F). cbn [of_option bind]. apply G. destruct F as (F & _).
    apply nth_error_Some. congruence.
  - intros l N. rewrite (missing_index _ _ N). reflexivity.
Qed.

Lemma view_side d0 d p ml m0 l0 : view_of d0 d p -> side ml d0 = Some (m0, l0) ->
  exists m l cs, side ml d = Some (m, l) /\ shows m0 m (o_rows p) cs /\ l = map (label_at l0) cs /\ Forall (fun c => c < length l0) cs.
Proof.
  intros (VX & VY & VR & VLX & VLY & FR & FX & FY). unfold side.
  destruct (String.eqb ml "X"); [intro H; injection H as <- <-; exists (dm_X d), (dm_labels_X d), (o_colsX p); auto|].
  destruct (String.eqb ml "Y"); [intro H; injection H as <- <-; exists (dm_Y d), (dm_labels_Y d), (o_colsY p); auto|discriminate].
Qed.
(** C67.  Lookup by label is stable under any history: after any deletions, selections, finalize and
    unfinalize calls on a dataset with unique column labels, looking up a label that is still there
    gives, for the rows that are still there, exactly the values which the original dataset has in
    the row of that label and the column of that label; a label that is gone raises ValueError. *)
Theorem C67_lookup_after_any_history d0 os ml m0 labels0 :
  aligned d0 -> same_storage d0 -> proper_history d0 os -> side ml d0 = Some (m0, labels0) -> NoDup labels0 ->
  exists rows, Forall (fun r => r < length (dm_row_labels d0)) rows /\
    dm_row_labels (run_ops d0 os) = map (label_at (dm_row_labels d0)) rows /\
    exists m labels, side ml (run_ops d0 os) = Some (m, labels) /\ incl labels labels0 /\
    forall c, c < length labels0 -> let l := label_at labels0 c in
      get_column_by_label (run_ops d0 os) ml l =
      if in_dec (list_eq_dec Nat.eq_dec) l labels then Ok (map (fun r => entry m0 r c) rows) else Err ValueError.
Proof.
  intros A SS P S ND. destruct (C36_any_history d0 os A SS P) as (p & V). set (d := run_ops d0 os) in *. clearbody d.
  destruct (view_side _ _ _ _ _ _ V S) as (m & l & cs & Sd & Sh & -> & Fc).
  assert (Al := C36_counts _ _ _ V).
  destruct V as (_ & _ & VR & _ & _ & FR & _ & _).
  exists (o_rows p). split; [exact FR|]. split; [exact VR|]. exists m, (map (label_at labels0) cs). split; [exact Sd|]. split.
  { intros x I. apply in_map_iff in I. destruct I as (c & <- & I). rewrite Forall_forall in Fc. apply nth_In. apply Fc; exact I. }
  intros c L. cbv zeta. unfold get_column_by_label. rewrite side_labels, Sd. cbn [bind].
  match goal with |- context [in_dec ?d ?a ?b] => destruct (in_dec d a b) as [I|N] end.
  - destruct (in_has_index _ _ I) as (k & K). rewrite K. cbn [of_option bind].
    apply index_first in K. destruct K as (K & _). rewrite nth_error_map in K.
    destruct (nth_error cs k) as [c'|] eqn:E; [|discriminate]. cbn in K. injection K as K.
    assert (Hc' : c' < length labels0). { rewrite Forall_forall in Fc. apply Fc. eapply nth_error_In; exact E. }
    assert (c' = c). { unfold label_at in K. eapply (NoDup_nth labels0 []); eauto. }
    subst c'. unfold dm_get_column. rewrite side_matrix, Sd. cbn [bind].
    assert (Lk : k < length cs) by (apply nth_error_Some; congruence).
    rewrite (shown_column _ _ _ _ k Sh Lk). rewrite (nth_error_nth cs k 0 E). reflexivity.
  - rewrite (missing_index _ _ N). reflexivity.
Qed.

(** ** values per column *)
Lemma insert_unique_in x y l : In y (insert_unique x l) <-> y = x \/ In y l.
Proof.
  induction l as [|z l IH]; cbn [insert_unique]; [cbn; intuition congruence|].
  destruct (Z.eqb_spec x z) as [->|]; [cbn; intuition congruence|].
  destruct (x <? z)%Z; [cbn; intuition congruence|]. cbn [In]. rewrite IH. intuition congruence.
Qed.
Lemma insert_unique_sorted x l : StronglySorted Z.lt l -> StronglySorted Z.lt (insert_unique x l).
Proof.
  induction l as [|z l IH]; intro H; cbn [insert_unique]; [repeat constructor|].
  inversion H as [|? ? H1 H2]; subst.
  destruct (Z.eqb_spec x z) as [->|]; [exact H|]. destruct (Z.ltb_spec x z).
  - constructor; [exact H|]. constructor; [assumption|]. eapply Forall_impl; [|exact H2]. cbn. intros; lia.
  - constructor; [apply IH; exact H1|]. apply Forall_forall. intros y I. apply insert_unique_in in I.
    destruct I as [->|I]; [lia|]. rewrite Forall_forall in H2. apply H2; exact I.
Qed.
Lemma np_unique_values l : distinct_values l (np_unique l).
Proof.
  unfold distinct_values. induction l as [|x l (IH1 & IH2)]; cbn [np_unique fold_right]; [split; [constructor|tauto]|].
  split; [apply insert_unique_sorted; exact IH1|]. intro y. rewrite insert_unique_in. cbn [In]. rewrite IH2. intuition congruence.
Qed.
Lemma mapM_ok_nth {A B} (f : A -> res B) l : (forall x, In x l -> exists y, f x = Ok y) ->
  exists ys, mapM f l = Ok ys /\ length ys = length l /\ forall i x, nth_error l i = Some x -> exists y, nth_error ys i = Some y /\ f x = Ok y.
Proof.
  induction l as [|a l IH]; intro H.
  - exists []. split; [reflexivity|]. split; [reflexivity|]. intros [|i] x E; discriminate.
  - destruct (H a (or_introl eq_refl)) as (y & Hy). destruct IH as (ys & E & L & N); [intros; apply H; right; assumption|].
    exists (y :: ys). cbn [mapM]. rewrite Hy. cbn [bind]. rewrite E. split; [reflexivity|]. split; [cbn; congruence|].
    intros [|i] x Ex; cbn in Ex; [injection Ex as <-; exists y; split; [reflexivity|exact Hy]|apply N; exact Ex].
Qed.
(** C67.  get_values_per_column gives for each column its values in increasing order, each once: no
    value that occurs is missing and none is listed that does not occur. *)
Theorem C67_values_per_column d ml m labels : aligned d -> side ml d = Some (m, labels) ->
  exists values, get_values_per_column d ml = Ok values /\ length values = length labels /\
    forall c, c < length labels -> exists vs, nth_error values c = Some vs /\
      StronglySorted Z.lt vs /\ forall x, In x vs <-> exists r, r < length (dm_row_labels d) /\ entry m r c = x.
Proof.
  intros A S. assert (R := aligned_side _ _ _ _ A S). assert (W := whole_matrix _ _ _ R). destruct R as (R1 & R2 & _).
  unfold get_values_per_column. rewrite side_matrix, S. cbn [bind]. rewrite R2.
  assert (G : forall c, c < length labels -> get_column m (Z.of_nat c) = Ok (map (fun r => entry m r c) (seq 0 (length (dm_row_labels d))))).
  { intros c L. rewrite (shown_column _ _ _ _ c W) by (rewrite seq_length; exact L). rewrite seq_nth by exact L. reflexivity. }
  destruct (mapM_ok_nth (fun c => column <- get_column m (Z.of_nat c) ;; Ok (np_unique column)) (seq 0 (length labels))) as (ys & E & L & N).
  { intros c I. apply in_seq in I. rewrite G by lia. eexists; reflexivity. }
  exists ys. split; [exact E|]. split; [rewrite L; apply seq_length|]. intros c Hc.
  destruct (N c c) as (y & Ny & Fy).
  { rewrite (nth_error_nth' _ 0) by (rewrite seq_length; exact Hc). rewrite seq_nth by exact Hc. reflexivity. }
  rewrite G in Fy by exact Hc. cbn [bind] in Fy. injection Fy as <-.
  exists (np_unique (map (fun r => entry m r c) (seq 0 (length (dm_row_labels d))))). split; [exact Ny|].
  destruct (np_unique_values (map (fun r => entry m r c) (seq 0 (length (dm_row_labels d))))) as (D1 & D2).
  split; [exact D1|]. intro x. rewrite D2, in_map_iff. split.
  - intros (r & <- & I). apply in_seq in I. exists r. split; [lia|reflexivity].
  - intros (r & Hr & <-). exists r. split; [reflexivity|]. apply in_seq. lia.
Qed.
Lemma sorted_lt_nodup l : StronglySorted Z.lt l -> NoDup l.
Proof.
  induction 1 as [|x l H IH F]; constructor; [|exact IH]. intro I. rewrite Forall_forall in F. specialize (F _ I). lia.
Qed.
(** the values obtained so are what an AD-tree needs: built from X with them, every count is exact *)
Theorem C67_values_suffice_for_trees d values leaf_list_threshold :
  aligned d -> dm_row_labels d <> [] -> get_values_per_column d "X" = Ok values ->
  (leaf_list_threshold <= Z.of_nat (length (dm_row_labels d)))%Z ->
  let D := tree_data d values leaf_list_threshold in
  exists t, build_tree D false = Ok t /\ forall q, wf_query D q -> query_count D false q t = Ok (count_matching D q, t).
Proof.
  intros A NE G T. cbv zeta. destruct (C67_values_per_column d "X" (dm_X d) (dm_labels_X d) A eq_refl) as (vs & G' & L & V).
  rewrite G in G'. injection G' as <-. destruct A as ((R1 & R2 & R3) & _).
  apply C01_ad_tree_counts_exact.
  - constructor.
    + cbn. rewrite R2. exact R3.
    + cbn. rewrite R2. intros c Hc. destruct (V c Hc) as (v & N & So & I). exists v. split; [exact N|]. split; [apply sorted_lt_nodup; exact So|].
      assert (In (entry (dm_X d) 0 c) v).
      { apply I. exists 0. split; [|reflexivity]. destruct (dm_row_labels d); [congruence|cbn; lia]. }
      split; [destruct v; [contradiction|discriminate]|].
      intros row x Ir Ex. apply I. apply (In_nth _ _ []) in Ir. destruct Ir as (r & Hr & Er). exists r.
      split; [congruence|]. unfold entry. rewrite Er. apply (nth_error_nth _ _ 0%Z Ex).
  - unfold threshold_ok. cbn. rewrite R1. exact T.
Qed.

(** *** examples *)
Definition sample2 : dmatrix :=
  DMat "other" (SMat CSC 3 [[1; 0; 2]; [0; 1; 3]; [1; 1; 4]]%Z) (SMat CSC 1 [[0]; [1]; [1]]%Z)
       [txt 100; txt 101; txt 102] [txt 200; txt 201; txt 202] [txt 300] true.
Definition sample3 : dmatrix :=
  DMat "sample" (SMat CSR 3 [[1; 0; 2]; [0; 1; 3]; [1; 0; 4]]%Z) (SMat CSR 1 [[0]; [1]; [1]]%Z)
       [txt 100; txt 101; txt 102] [txt 200; txt 201; txt 203] [txt 300] false.
Example C67_nonvacuous :
  aligned sample /\ aligned sample2 /\ aligned sample3 /\ dm_eqb sample sample2 = true /\ dm_eqb sample sample3 = false /\
  dm_diff sample sample3 = "column_labels_X X"%string /\ NoDup (dm_labels_X sample) /\
  get_column_by_label (run_ops sample [KeepRows [0; 2]; DeleteColumnsX [0]]%Z) "X" (txt 202) = Ok [2; 4]%Z /\
  get_column_by_label (run_ops sample [KeepRows [0; 2]; DeleteColumnsX [0]]%Z) "X" (txt 200) = Err ValueError /\
  get_values_per_column sample "X" = Ok [[0; 1]; [0; 1]; [2; 3; 4]]%Z /\
  get_matrix sample "x" = Err ValueError.
Proof.
  split; [apply sample_aligned|]. split; [repeat constructor|]. split; [repeat constructor|]. split; [vm_compute; reflexivity|].
  split; [vm_compute; reflexivity|]. split; [vm_compute; reflexivity|]. split.
  { repeat constructor; cbn; intros H; repeat destruct H as [H|H]; try discriminate; exact H. }
  repeat split; vm_compute; reflexivity.
Qed.
(** with two columns of the same name, lookup by label finds the first only *)
Theorem C67_duplicate_labels_refuted : exists d, aligned d /\
  nth_error (dm_labels_X d) 1 = Some (txt 200) /\ dm_get_column d "X" 1 = Ok [7]%Z /\ get_column_by_label d "X" (txt 200) = Ok [5]%Z.
Proof.
  exists (DMat "d" (SMat CSR 2 [[5; 7]]%Z) (SMat CSR 0 [[]]) [txt 1] [txt 200; txt 200] [] false).
  split; [repeat constructor|]. repeat split.
Qed.
