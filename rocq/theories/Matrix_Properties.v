(** C36, C37, C39: dataset matrices under any sequence of operations. *)
From Coq Require Import String.
From Verif Require Import Base Matrix_Model Matrix_Spec Matrix_Proofs.

Ltac dview H := destruct H as (VX & VY & VR & VLX & VLY & FR & FX & FY).

(** ** a dataset is a view of itself *)
Lemma map_nth_seq {A} (l : list A) dflt : map (fun i => nth i l dflt) (seq 0 (length l)) = l.
Proof.
  induction l as [|x l IH]; [reflexivity|]. simpl. f_equal. rewrite <- seq_shift, map_map. exact IH.
Qed.
Lemma whole_matrix m nr nc : rectangular m nr nc -> shows m m (seq 0 nr) (seq 0 nc).
Proof.
  intros (H1 & H2 & H3). split; [rewrite seq_length; assumption|].
  rewrite <- (map_nth_seq (sm_rows m) []) at 1. rewrite H1. apply map_ext_in. intros r Hr. apply in_seq in Hr.
  unfold entry. assert (Hl : length (nth r (sm_rows m) []) = nc).
  { rewrite Forall_forall in H3. apply H3. apply nth_In. lia. }
  rewrite <- Hl. rewrite map_nth_seq. reflexivity.
Qed.
Lemma Forall_seq n : Forall (fun i => i < n) (seq 0 n).
Proof. apply Forall_forall. intros i Hi. apply in_seq in Hi. lia. Qed.
Lemma C36_starts_aligned d : aligned d -> view_of d d (everything d).
Proof.
  intros [HX HY]. unfold view_of, everything; simpl. split; [apply whole_matrix; assumption|].
  split; [apply whole_matrix; assumption|]. unfold label_at. rewrite !map_nth_seq. repeat split; apply Forall_seq.
Qed.

Lemma Forall_picked (P : nat -> Prop) (l : list nat) zs l' : picked l zs l' -> Forall P l -> Forall P l'.
Proof. intros H. rewrite !Forall_forall. intros HF x Hx. apply HF. eapply picked_incl; eassumption. Qed.

(** X and Y are stored in the same format (so are those made by every dataset source) *)
Definition same_storage (d : dmatrix) : Prop := sm_format (dm_X d) = sm_format (dm_Y d).

(** what one call does to a view *)
Definition good_step (d0 d : dmatrix) (p : origin) (o : op) (r : outcome) : Prop :=
  match r with
  | (d', Ok _) => exists p', effect o p p' /\ view_of d0 d' p' /\ same_storage d'
  | (d', Err _) => d' = d
  end.

Section Step.
Variables d0 d : dmatrix.
Variable p : origin.
Hypothesis V : view_of d0 d p.
Hypothesis S0 : same_storage d.

Lemma step_delete_row r : good_step d0 d p (DeleteRow r) (delete_row d r).
Proof.
  dview V. unfold delete_row. destruct (dm_final d); [reflexivity|].
  destruct (sm_format (dm_X d)) eqn:EX; [|rewrite delete_csc by assumption; reflexivity].
  assert (EY : sm_format (dm_Y d) = CSR) by (rewrite <- S0; assumption).
  rewrite delete_rows_eq by assumption. rewrite (shows_nrows _ _ _ _ VX). simpl mapM.
  destruct (py_index (length (o_rows p)) r) as [k|e] eqn:Ek; simpl; [|reflexivity].
  rewrite delete_rows_eq by assumption. rewrite (shows_nrows _ _ _ _ VY). simpl mapM. rewrite Ek. simpl.
  unfold py_del. rewrite VR, map_length, Ek. simpl.
  exists (Origin (drop_positions [k] (o_rows p)) (o_colsX p) (o_colsY p)). split; [|split; [|reflexivity]].
  - simpl. split; [|split; reflexivity]. apply py_del_without. unfold py_del. rewrite Ek. reflexivity.
  - unfold view_of; simpl. split; [apply (shows_drop_rows _ _ _ _ _ VX)|]. split; [apply (shows_drop_rows _ _ _ _ _ VY)|].
    split; [apply drop_map|]. repeat split; try assumption. apply Forall_drop; assumption.
Qed.

Lemma step_delete_column_X c : good_step d0 d p (DeleteColumnX c) (delete_column_X d c).
Proof.
  dview V. unfold delete_column_X. destruct (dm_final d); [reflexivity|].
  destruct (sm_format (dm_X d)) eqn:EX; [|rewrite delete_csc by assumption; reflexivity].
  rewrite delete_cols_eq by assumption. rewrite (proj1 VX). simpl mapM.
  destruct (py_index (length (o_colsX p)) c) as [k|e] eqn:Ek; [|reflexivity].
  cbn [bind res_map try_set set_X dm_labels_X]. unfold py_del. rewrite VLX, map_length, Ek. cbn [bind try_set].
  exists (Origin (o_rows p) (drop_positions [k] (o_colsX p)) (o_colsY p)). split; [|split].
  - simpl. split; [|split; reflexivity]. apply py_del_without. unfold py_del. rewrite Ek. reflexivity.
  - unfold view_of; simpl. split; [rewrite <- (proj1 VX); apply (shows_drop_cols _ _ _ _ _ VX)|]. split; [assumption|].
    split; [assumption|]. split; [apply drop_map|]. repeat split; try assumption. apply Forall_drop; assumption.
  - red. simpl. rewrite <- S0. symmetry; assumption.
Qed.
Lemma step_delete_column_Y c : good_step d0 d p (DeleteColumnY c) (delete_column_Y d c).
Proof.
  dview V. unfold delete_column_Y. destruct (dm_final d); [reflexivity|].
  destruct (sm_format (dm_Y d)) eqn:EX; [|rewrite delete_csc by assumption; reflexivity].
  rewrite delete_cols_eq by assumption. rewrite (proj1 VY). simpl mapM.
  destruct (py_index (length (o_colsY p)) c) as [k|e] eqn:Ek; [|reflexivity].
  cbn [bind res_map try_set set_Y dm_labels_Y]. unfold py_del. rewrite VLY, map_length, Ek. cbn [bind try_set].
  exists (Origin (o_rows p) (o_colsX p) (drop_positions [k] (o_colsY p))). split; [|split].
  - simpl. split; [|split; reflexivity]. apply py_del_without. unfold py_del. rewrite Ek. reflexivity.
  - unfold view_of; simpl. split; [assumption|]. split; [rewrite <- (proj1 VY); apply (shows_drop_cols _ _ _ _ _ VY)|].
    split; [assumption|]. split; [assumption|]. split; [apply drop_map|]. repeat split; try assumption. apply Forall_drop; assumption.
  - red. simpl. rewrite S0. assumption.
Qed.

Lemma sort_nonneg zs : Forall (fun z => (0 <= z)%Z) zs -> Forall (fun z => (0 <= z)%Z) (sort_Z zs).
Proof.
  rewrite !Forall_forall. intros H z Hz. apply H. apply (Permutation_in _ (Permutation_sym (sort_Z_perm zs))). assumption.
Qed.
Lemma step_delete_columns_X zs : Forall (fun z => (0 <= z)%Z) zs ->
  good_step d0 d p (DeleteColumnsX zs) (delete_columns_X d zs).
Proof.
  intros Hz. apply sort_nonneg in Hz. dview V. unfold delete_columns_X. destruct (dm_final d); [reflexivity|].
  destruct (sm_format (dm_X d)) eqn:EX; [|rewrite delete_csc by assumption; reflexivity].
  rewrite delete_cols_eq by assumption. rewrite (proj1 VX).
  destruct (mapM (py_index (length (o_colsX p))) (sort_Z zs)) as [ps|e] eqn:Ek; [|reflexivity].
  cbn [bind res_map try_set set_X dm_labels_X].
  exists (Origin (o_rows p) (drop_positions ps (o_colsX p)) (o_colsY p)). split; [|split].
  - simpl. split; [|split; reflexivity]. apply without_all_perm. eapply drop_without_all; eassumption.
  - unfold view_of; simpl. split; [rewrite <- (proj1 VX); apply (shows_drop_cols _ _ _ _ _ VX)|]. split; [assumption|].
    split; [assumption|]. split; [|repeat split; try assumption; apply Forall_drop; assumption].
    rewrite (labels_not_in_drop _ _ _ _ Ek Hz), VLX. apply drop_map.
  - red. simpl. rewrite <- S0. symmetry; assumption.
Qed.
Lemma step_delete_columns_Y zs : Forall (fun z => (0 <= z)%Z) zs ->
  good_step d0 d p (DeleteColumnsY zs) (delete_columns_Y d zs).
Proof.
  intros Hz. apply sort_nonneg in Hz. dview V. unfold delete_columns_Y. destruct (dm_final d); [reflexivity|].
  destruct (sm_format (dm_Y d)) eqn:EX; [|rewrite delete_csc by assumption; reflexivity].
  rewrite delete_cols_eq by assumption. rewrite (proj1 VY).
  destruct (mapM (py_index (length (o_colsY p))) (sort_Z zs)) as [ps|e] eqn:Ek; [|reflexivity].
  cbn [bind res_map try_set set_Y dm_labels_Y].
  exists (Origin (o_rows p) (o_colsX p) (drop_positions ps (o_colsY p))). split; [|split].
  - simpl. split; [|split; reflexivity]. apply without_all_perm. eapply drop_without_all; eassumption.
  - unfold view_of; simpl. split; [assumption|]. split; [rewrite <- (proj1 VY); apply (shows_drop_cols _ _ _ _ _ VY)|].
    split; [assumption|]. split; [assumption|]. split; [|repeat split; try assumption; apply Forall_drop; assumption].
    rewrite (labels_not_in_drop _ _ _ _ Ek Hz), VLY. apply drop_map.
  - red. simpl. rewrite S0. assumption.
Qed.

Lemma step_keep_rows zs : Sorted Z.lt zs -> Forall (fun z => (0 <= z < Z.of_nat (length (o_rows p)))%Z) zs ->
  good_step d0 d p (KeepRows zs) (keep_rows d zs).
Proof.
  intros Hs Hz. dview V. unfold keep_rows. destruct (dm_final d); [reflexivity|].
  destruct zs as [|z0 zs0]; [reflexivity|]. set (zs := z0 :: zs0) in *.
  destruct (sm_format (dm_X d)) eqn:EX; [|rewrite delete_csc by assumption; reflexivity].
  assert (EY : sm_format (dm_Y d) = CSR) by (rewrite <- S0; assumption).
  rewrite delete_rows_eq by assumption. rewrite (shows_nrows _ _ _ _ VX).
  fold (to_delete (length (o_rows p)) zs).
  destruct (to_delete_ok (length (o_rows p)) zs) as (ps & Eps & Hps). rewrite Eps. cbn [res_map try_set set_X dm_Y].
  rewrite delete_rows_eq by assumption. rewrite (shows_nrows _ _ _ _ VY), Eps.
  cbn [res_map try_set set_Y set_X dm_row_labels].
  rewrite VR, py_gather_map. rewrite (keep_increasing _ _ ps Hs Hz Hps). cbn [res_map try_set].
  exists (Origin (drop_positions ps (o_rows p)) (o_colsX p) (o_colsY p)). split; [|split; [|reflexivity]].
  - simpl. split; [|split; reflexivity]. apply py_gather_picked. apply keep_increasing; assumption.
  - unfold view_of; simpl. split; [apply (shows_drop_rows _ _ _ _ _ VX)|]. split; [apply (shows_drop_rows _ _ _ _ _ VY)|].
    repeat split; try assumption. apply Forall_drop; assumption.
Qed.

Lemma step_select_rows zs label : good_step d0 d p (SelectRows zs label) (do_op d (SelectRows zs label)).
Proof.
  dview V. cbn [do_op]. unfold select_rows. destruct zs as [|z0 zs0]; [reflexivity|]. set (zs := z0 :: zs0).
  rewrite (take_rows_shows _ _ _ _ _ VX), (take_rows_shows _ _ _ _ _ VY), VR, py_gather_map.
  destruct (py_gather (o_rows p) (sort_Z zs)) as [rows'|e] eqn:E; [|reflexivity]. cbn [res_map bind].
  apply py_gather_picked in E.
  exists (Origin rows' (o_colsX p) (o_colsY p)). split; [|split; [|assumption]].
  - simpl. split; [|split; reflexivity]. exists (sort_Z zs). split; [apply sort_Z_perm|]. split; [apply sort_Z_sorted|assumption].
  - unfold view_of; simpl. repeat split; try assumption; try apply VX; try apply VY. eapply Forall_picked; eassumption.
Qed.
Lemma step_select_columns zs label : good_step d0 d p (SelectColumnsX zs label) (do_op d (SelectColumnsX zs label)).
Proof.
  dview V. cbn [do_op]. unfold select_columns_X. destruct zs as [|z0 zs0]; [reflexivity|]. set (zs := z0 :: zs0).
  rewrite VLX, py_gather_map.
  destruct (py_gather (o_colsX p) (sort_Z zs)) as [cols'|e] eqn:E.
  - destruct (take_cols_shows _ _ _ _ _ _ VX E) as (X' & EX' & VX' & Hf). rewrite EX'. cbn [res_map bind].
    apply py_gather_picked in E.
    exists (Origin (o_rows p) cols' (o_colsY p)). split; [|split].
    + simpl. split; [|split; reflexivity]. exists (sort_Z zs). split; [apply sort_Z_perm|]. split; [apply sort_Z_sorted|assumption].
    + unfold view_of; simpl. repeat split; try assumption; try apply VX'; try apply VY. eapply Forall_picked; eassumption.
    + red. simpl. rewrite Hf. assumption.
  - destruct (take_cols_err _ _ _ _ _ _ VX E) as (e' & Ee). rewrite Ee. reflexivity.
Qed.
Lemma step_finalize : good_step d0 d p Finalize (do_op d Finalize).
Proof.
  exists p. split; [reflexivity|]. unfold finalize. destruct (dm_final d); [split; assumption|]. split; [|reflexivity].
  dview V. unfold view_of; simpl. repeat split; try assumption; try apply VX; apply VY.
Qed.
Lemma step_unfinalize : good_step d0 d p Unfinalize (do_op d Unfinalize).
Proof.
  exists p. split; [reflexivity|]. unfold unfinalize. split; [|reflexivity].
  dview V. unfold view_of; simpl. repeat split; try assumption; try apply VX; apply VY.
Qed.
End Step.

(** C36 (one call).  Called on a dataset that shows certain rows and columns of an original one with
    the right labels, any operation with proper arguments either returns normally and has exactly
    the intended effect - the result again shows original rows and columns, each with its original
    label - or raises an exception and leaves the dataset as it was. *)
Theorem C36_operation_keeps_alignment d0 d p o d' r :
  view_of d0 d p -> same_storage d -> proper_arguments p o -> do_op d o = (d', r) ->
  match r with
  | Ok _ => exists p', effect o p p' /\ view_of d0 d' p' /\ same_storage d'
  | Err _ => d' = d
  end.
Proof.
  intros V S Hp E.
  assert (G : good_step d0 d p o (do_op d o)).
  { destruct o; cbn [do_op].
    - apply step_delete_row; assumption.
    - destruct Hp. apply step_keep_rows; assumption.
    - apply step_select_rows; assumption.
    - apply step_select_columns; assumption.
    - apply step_delete_columns_X; assumption.
    - apply step_delete_columns_Y; assumption.
    - apply step_delete_column_X; assumption.
    - apply step_delete_column_Y; assumption.
    - apply step_finalize; assumption.
    - apply step_unfinalize; assumption. }
  rewrite E in G. destruct r; exact G.
Qed.

(** a history of calls, each with arguments proper for the dataset it is applied to *)
Fixpoint proper_history (d : dmatrix) (os : list op) : Prop :=
  match os with
  | [] => True
  | o :: os' => proper_arguments (everything d) o /\ proper_history (fst (do_op d o)) os'
  end.
Lemma proper_lengths p p' o : length (o_rows p) = length (o_rows p') -> proper_arguments p o -> proper_arguments p' o.
Proof. intros H. destruct o; simpl; try exact (fun x => x). rewrite H. exact (fun x => x). Qed.

(** C36 (any history).  After any sequence of row and column deletions, selections, finalize and
    unfinalize calls, starting from an aligned dataset, the dataset shows some of the original rows
    and columns and every label is the label of the same original row or column. *)
Theorem C36_any_history d0 os :
  aligned d0 -> same_storage d0 -> proper_history d0 os ->
  exists p, view_of d0 (run_ops d0 os) p.
Proof.
  intros HA HS Hp.
  assert (G : forall d, (exists p, view_of d0 d p) -> same_storage d -> proper_history d os -> exists p, view_of d0 (run_ops d os) p).
  { clear HS Hp. induction os as [|o os IH]; intros d (p & V) S Hp; [exists p; exact V|].
    destruct Hp as [Ho Hp]. unfold run_ops. cbn [fold_left]. fold (run_ops (fst (do_op d o)) os).
    assert (Ho' : proper_arguments p o).
    { eapply proper_lengths; [|exact Ho]. simpl. rewrite seq_length. dview V. rewrite VR. apply map_length. }
    destruct (do_op d o) as [d' r] eqn:E. pose proof (C36_operation_keeps_alignment d0 d p o d' r V S Ho' E) as G.
    destruct r.
    - destruct G as (p' & _ & V' & S'). apply IH; [exists p'; exact V'|exact S'|exact Hp].
    - subst d'. apply IH; [exists p; exact V|exact S|exact Hp]. }
  apply G; [exists (everything d0); apply C36_starts_aligned; assumption|assumption|assumption].
Qed.

(** the label counts equal the matrix dimensions in every view *)
Theorem C36_counts d0 d p : view_of d0 d p -> aligned d.
Proof.
  intros V. dview V. unfold aligned, rectangular. rewrite VR, VLX, VLY, !map_length.
  destruct VX as [X1 X2], VY as [Y1 Y2]. rewrite X2, Y2, !map_length. repeat split; try assumption;
  apply Forall_forall; intros row Hrow; apply in_map_iff in Hrow as (r & <- & _); apply map_length.
Qed.

(** and the calls do succeed on a dataset under construction (not final, stored by rows) when the
    indices exist *)
Theorem C36_calls_succeed d :
  aligned d -> dm_final d = false -> sm_format (dm_X d) = CSR -> sm_format (dm_Y d) = CSR ->
  (forall r, (- Z.of_nat (length (dm_row_labels d)) <= r < Z.of_nat (length (dm_row_labels d)))%Z -> snd (delete_row d r) = Ok tt) /\
  (forall zs, zs <> [] -> Forall (fun z => (0 <= z < Z.of_nat (length (dm_row_labels d)))%Z) zs -> snd (keep_rows d zs) = Ok tt) /\
  (forall zs, Forall (fun z => (0 <= z < Z.of_nat (length (dm_labels_X d)))%Z) zs -> snd (delete_columns_X d zs) = Ok tt) /\
  (forall zs, Forall (fun z => (0 <= z < Z.of_nat (length (dm_labels_Y d)))%Z) zs -> snd (delete_columns_Y d zs) = Ok tt) /\
  (forall c, (- Z.of_nat (length (dm_labels_X d)) <= c < Z.of_nat (length (dm_labels_X d)))%Z -> snd (delete_column_X d c) = Ok tt) /\
  (forall c, (- Z.of_nat (length (dm_labels_Y d)) <= c < Z.of_nat (length (dm_labels_Y d)))%Z -> snd (delete_column_Y d c) = Ok tt).
Proof.
  intros [(X1 & X2 & _) (Y1 & Y2 & _)] Hfin FX FY.
  assert (I : forall n z, (- Z.of_nat n <= z < Z.of_nat n)%Z -> exists k, py_index n z = Ok k).
  { intros n z Hz. destruct (Z_lt_ge_dec z 0).
    - exists (Z.to_nat (Z.of_nat n + z)). apply py_index_means. split; [lia|right; lia].
    - exists (Z.to_nat z). apply py_index_means. split; [lia|left; lia]. }
  assert (IM : forall n zs, Forall (fun z => (0 <= z < Z.of_nat n)%Z) zs -> exists ps, mapM (py_index n) (sort_Z zs) = Ok ps).
  { intros n zs Hz. destruct (mapM_exists (py_index n) (fun _ _ => True) (sort_Z zs)) as (ps & E & _); [|exists ps; exact E].
    intros z Hin. apply (Permutation_in _ (Permutation_sym (sort_Z_perm zs))) in Hin. rewrite Forall_forall in Hz.
    destruct (I n z) as (k & Hk); [specialize (Hz _ Hin); lia|]. exists k. split; [exact Hk|exact Logic.I]. }
  unfold sm_nrows in *.
  repeat split.
  - intros r Hr. destruct (I _ _ Hr) as (k & Hk). unfold delete_row. rewrite Hfin, delete_rows_eq by assumption.
    unfold sm_nrows. rewrite X1. simpl mapM. rewrite Hk. cbn [bind res_map try_set set_X dm_Y].
    rewrite delete_rows_eq by assumption. unfold sm_nrows. rewrite Y1. simpl mapM. rewrite Hk. cbn [bind res_map try_set set_X set_Y dm_row_labels].
    unfold py_del. rewrite Hk. reflexivity.
  - intros zs Hne Hz. unfold keep_rows. rewrite Hfin. destruct zs as [|z0 zs0]; [contradiction|]. set (zs := z0 :: zs0) in *.
    rewrite delete_rows_eq by assumption. unfold sm_nrows. rewrite X1. fold (to_delete (length (dm_row_labels d)) zs).
    destruct (to_delete_ok (length (dm_row_labels d)) zs) as (ps & Eps & _). rewrite Eps. cbn [bind res_map try_set set_X dm_Y].
    rewrite delete_rows_eq by assumption. unfold sm_nrows. rewrite Y1, Eps. cbn [bind res_map try_set set_X set_Y dm_row_labels].
    destruct (gather_fetch (dm_row_labels d) zs Hz) as (l' & El & _). rewrite El. reflexivity.
  - intros zs Hz. destruct (IM _ _ Hz) as (ps & Eps). unfold delete_columns_X. rewrite Hfin, delete_cols_eq by assumption.
    rewrite X2, Eps. reflexivity.
  - intros zs Hz. destruct (IM _ _ Hz) as (ps & Eps). unfold delete_columns_Y. rewrite Hfin, delete_cols_eq by assumption.
    rewrite Y2, Eps. reflexivity.
  - intros c Hc. destruct (I _ _ Hc) as (k & Hk). unfold delete_column_X. rewrite Hfin, delete_cols_eq by assumption.
    rewrite X2. simpl mapM. rewrite Hk. cbn [bind res_map try_set set_X dm_labels_X]. unfold py_del. rewrite Hk. reflexivity.
  - intros c Hc. destruct (I _ _ Hc) as (k & Hk). unfold delete_column_Y. rewrite Hfin, delete_cols_eq by assumption.
    rewrite Y2. simpl mapM. rewrite Hk. cbn [bind res_map try_set set_Y dm_labels_Y]. unfold py_del. rewrite Hk. reflexivity.
Qed.
Theorem C36_selections_succeed d label :
  aligned d ->
  (forall zs, zs <> [] -> Forall (fun z => (- Z.of_nat (length (dm_row_labels d)) <= z < Z.of_nat (length (dm_row_labels d)))%Z) zs ->
     exists d', select_rows d zs label = Ok d' /\ dm_final d' = false) /\
  (forall zs, zs <> [] -> Forall (fun z => (- Z.of_nat (length (dm_labels_X d)) <= z < Z.of_nat (length (dm_labels_X d)))%Z) zs ->
     exists d', select_columns_X d zs label = Ok d' /\ dm_final d' = false).
Proof.
  intros HA. pose proof (C36_starts_aligned d HA) as V. dview V.
  assert (G : forall (l : list nat) zs, Forall (fun z => (- Z.of_nat (length l) <= z < Z.of_nat (length l))%Z) zs ->
                exists l', py_gather l (sort_Z zs) = Ok l').
  { intros l zs Hz. destruct (mapM_exists (py_get l) (fun _ _ => True) (sort_Z zs)) as (l' & E & _); [|exists l'; exact E].
    intros z Hin. apply (Permutation_in _ (Permutation_sym (sort_Z_perm zs))) in Hin. rewrite Forall_forall in Hz. specialize (Hz _ Hin).
    assert (E : exists k, py_index (length l) z = Ok k /\ k < length l).
    { destruct (Z_lt_ge_dec z 0).
      - exists (Z.to_nat (Z.of_nat (length l) + z)). split; [apply py_index_means; split; [lia|right; lia]|lia].
      - exists (Z.to_nat z). split; [apply py_index_means; split; [lia|left; lia]|lia]. }
    destruct E as (k & Hk & Hlt). destruct (nth_error l k) as [x|] eqn:Ex; [|apply nth_error_None in Ex; lia].
    exists x. split; [|exact Logic.I]. unfold py_get. rewrite Hk. simpl. rewrite Ex. reflexivity. }
  split; intros zs Hne Hz.
  - unfold select_rows. destruct zs as [|z0 zs0]; [contradiction|]. set (zs := z0 :: zs0) in *.
    rewrite (take_rows_shows _ _ _ _ _ VX), (take_rows_shows _ _ _ _ _ VY), VR, py_gather_map.
    destruct (G (o_rows (everything d)) zs) as (l' & E); [simpl; rewrite seq_length; exact Hz|]. rewrite E. cbn [res_map bind].
    eexists. split; reflexivity.
  - unfold select_columns_X. destruct zs as [|z0 zs0]; [contradiction|]. set (zs := z0 :: zs0) in *.
    destruct (G (o_colsX (everything d)) zs) as (l' & E); [simpl; rewrite seq_length; exact Hz|].
    destruct (take_cols_shows _ _ _ _ _ _ VX E) as (X' & EX' & VX' & Hf). rewrite EX'. cbn [res_map bind].
    rewrite VLX, py_gather_map, E. cbn [res_map bind]. eexists. split; reflexivity.
Qed.

(** *** a concrete dataset: three rows, three features, one objective *)
Definition txt (n : nat) : text := [n].
Definition sample : dmatrix :=
  DMat "sample" (SMat CSR 3 [[1; 0; 2]; [0; 1; 3]; [1; 1; 4]]%Z) (SMat CSR 1 [[0]; [1]; [1]]%Z)
       [txt 100; txt 101; txt 102] [txt 200; txt 201; txt 202] [txt 300] false.
Example sample_aligned : aligned sample /\ same_storage sample.
Proof. repeat split; repeat constructor. Qed.
Example sample_history :
  proper_history sample [KeepRows [0; 2]; DeleteColumnsX [1; 0; 1]; DeleteRow (-1); Finalize; DeleteRow 0; SelectRows [0; 0] "twice"]%Z /\
  run_ops sample [KeepRows [0; 2]; DeleteColumnsX [1; 0; 1]; DeleteRow (-1); Finalize; DeleteRow 0; SelectRows [0; 0] "twice"]%Z =
  DMat "twice" (SMat CSC 1 [[2]; [2]]%Z) (SMat CSC 1 [[0]; [0]]%Z) [txt 100; txt 100] [txt 202] [txt 300] false.
Proof. split; [|reflexivity]. cbn. repeat split; repeat constructor; lia. Qed.

(** the restriction on arguments is needed: a negative index given to delete_columns_X removes the
    column but not its label *)
Theorem C36_negative_column_refuted :
  exists d, aligned d /\ same_storage d /\ snd (delete_columns_X d [-1]%Z) = Ok tt /\ ~ aligned (fst (delete_columns_X d [-1]%Z)).
Proof.
  exists sample. split; [apply sample_aligned|]. split; [reflexivity|]. split; [reflexivity|].
  intros [(_ & H & _) _]. vm_compute in H. discriminate.
Qed.
(** a row index that does not exist, given to keep_rows, raises IndexError after the data were
    already replaced: the labels no longer match *)
Theorem C36_keep_missing_row_refuted :
  exists d, aligned d /\ same_storage d /\ snd (keep_rows d [0; 5]%Z) = Err IndexError /\ ~ aligned (fst (keep_rows d [0; 5]%Z)).
Proof.
  exists sample. split; [apply sample_aligned|]. split; [reflexivity|]. split; [reflexivity|].
  intros [(H & _ & _) _]. vm_compute in H. discriminate.
Qed.

(** ** C37 keep_rows *)
(** for any list of existing rows: the data are the kept rows in their old order, each once; the
    labels are the labels of the rows in the order given *)
Theorem C37_general d zs d' :
  aligned d -> Forall (fun z => (0 <= z < Z.of_nat (length (dm_row_labels d)))%Z) zs ->
  keep_rows d zs = (d', Ok tt) ->
  let kept := filter (fun i => existsb (Z.eqb (Z.of_nat i)) zs) (seq 0 (length (dm_row_labels d))) in
  sm_rows (dm_X d') = map (fun i => nth i (sm_rows (dm_X d)) []) kept /\
  sm_rows (dm_Y d') = map (fun i => nth i (sm_rows (dm_Y d)) []) kept /\
  dm_row_labels d' = map (fun z => label_at (dm_row_labels d) (Z.to_nat z)) zs /\
  dm_labels_X d' = dm_labels_X d /\ dm_labels_Y d' = dm_labels_Y d /\
  sm_ncols (dm_X d') = sm_ncols (dm_X d) /\ sm_ncols (dm_Y d') = sm_ncols (dm_Y d).
Proof.
  intros [(X1 & X2 & _) (Y1 & Y2 & _)] Hz E. cbv zeta.
  unfold keep_rows in E. destruct (dm_final d); [discriminate|]. destruct zs as [|z0 zs0]; [discriminate|]. set (zs := z0 :: zs0) in *.
  destruct (sm_format (dm_X d)) eqn:FX; [|rewrite delete_csc in E by assumption; discriminate].
  rewrite delete_rows_eq in E by assumption. unfold sm_nrows in E. rewrite X1 in E. fold (to_delete (length (dm_row_labels d)) zs) in E.
  destruct (to_delete_ok (length (dm_row_labels d)) zs) as (ps & Eps & Hps). rewrite Eps in E. cbn [bind res_map try_set set_X dm_Y] in E.
  destruct (sm_format (dm_Y d)) eqn:FY; [|rewrite delete_csc in E by assumption; discriminate].
  rewrite delete_rows_eq in E by assumption. unfold sm_nrows in E. rewrite Y1, Eps in E. cbn [bind res_map try_set set_X set_Y dm_row_labels] in E.
  destruct (gather_fetch (dm_row_labels d) zs Hz) as (l' & El & Fl). rewrite El in E. cbn [try_set] in E.
  inversion E; subst d'; clear E. cbn [set_X set_Y set_row_labels dm_X dm_Y dm_row_labels dm_labels_X dm_labels_Y sm_rows sm_ncols].
  assert (K : forall l : list (list Z), length l = length (dm_row_labels d) ->
    drop_positions ps l = map (fun i => nth i l []) (filter (fun i => existsb (Z.eqb (Z.of_nat i)) zs) (seq 0 (length (dm_row_labels d))))).
  { intros l Hl. pose proof (drop_Forall2 ps l) as D. rewrite Hl in D.
    rewrite (filter_ext_in _ (fun i => existsb (Z.eqb (Z.of_nat i)) zs)) in D.
    - clear -D. induction D as [|i x is l' Hx D IH]; [reflexivity|]. simpl. f_equal; [|exact IH].
      symmetry. apply nth_error_nth. assumption.
    - intros i Hi. apply in_seq in Hi. rewrite Hps by lia. rewrite negb_involutive. reflexivity. }
  repeat split; try reflexivity.
  - apply K. assumption.
  - apply K. assumption.
  - clear -Fl. remember (map Z.to_nat zs) as is eqn:E. revert E. generalize zs. induction Fl as [|i x is l' Hx F IH]; intros zs' E.
    + destruct zs'; [reflexivity|discriminate].
    + destruct zs' as [|z zs']; [discriminate|]. simpl in *. inversion E; subst. f_equal; [|apply IH; reflexivity].
      symmetry. unfold label_at. apply nth_error_nth. assumption.
Qed.

Lemma map_inj_in {A B} (f : A -> B) l1 l2 : (forall x y, In x l1 -> In y l2 -> f x = f y -> x = y) -> map f l1 = map f l2 -> l1 = l2.
Proof.
  revert l2; induction l1 as [|x l1 IH]; intros [|y l2] H E; try discriminate; [reflexivity|].
  simpl in E. inversion E. f_equal; [apply H; simpl; auto|]. apply IH; [|assumption]. intros; apply H; simpl; auto.
Qed.
Lemma NoDup_nth_inj {A} (l : list A) d i j : NoDup l -> i < length l -> j < length l -> nth i l d = nth j l d -> i = j.
Proof. intros H Hi Hj E. eapply (NoDup_nth l d); eassumption. Qed.

(** C37.  On a dataset whose rows differ and whose row labels differ, keep_rows leaves every label
    with the data of its row exactly when the rows are given in increasing order without
    repetition. *)
Theorem C37_keep_rows_aligned_iff d zs d' :
  aligned d -> same_storage d -> NoDup (dm_row_labels d) -> NoDup (sm_rows (dm_X d)) ->
  Forall (fun z => (0 <= z < Z.of_nat (length (dm_row_labels d)))%Z) zs ->
  keep_rows d zs = (d', Ok tt) ->
  (exists rows, view_of d d' (Origin rows (seq 0 (length (dm_labels_X d))) (seq 0 (length (dm_labels_Y d)))))
  <-> Sorted Z.lt zs.
Proof.
  intros HA HS NL NX Hz E. split.
  - intros (rows & V). dview V. cbn [o_rows o_colsX o_colsY] in *.
    destruct (C37_general d zs d' HA Hz E) as (GX & _ & GL & _).
    assert (R : rows = map Z.to_nat zs).
    { rewrite GL in VR. rewrite <- (map_map Z.to_nat (label_at (dm_row_labels d))) in VR.
      symmetry in VR. apply map_inj_in in VR; [assumption|]. intros i j Hi Hj Hij. rewrite Forall_forall in FR.
      apply in_map_iff in Hj as (z & <- & Hzin). rewrite Forall_forall in Hz. specialize (Hz _ Hzin).
      eapply NoDup_nth_inj; [exact NL|apply FR; assumption|lia|exact Hij]. }
    destruct HA as [HXr HYr]. pose proof HXr as (X1 & X2 & X3).
    assert (W : map (fun r => nth r (sm_rows (dm_X d)) []) rows = map (fun i => nth i (sm_rows (dm_X d)) [])
               (filter (fun i => existsb (Z.eqb (Z.of_nat i)) zs) (seq 0 (length (dm_row_labels d))))).
    { rewrite <- GX. rewrite (proj2 VX). apply map_ext_in. intros r Hr. rewrite Forall_forall in FR. specialize (FR _ Hr).
      unfold entry. assert (Hl : length (nth r (sm_rows (dm_X d)) []) = length (dm_labels_X d)).
      { rewrite Forall_forall in X3. apply X3. apply nth_In. lia. }
      rewrite <- Hl. symmetry. apply map_nth_seq. }
    apply map_inj_in in W.
    2: { intros i j Hi Hj Hij. rewrite Forall_forall in FR. specialize (FR _ Hi). apply filter_In in Hj as [Hj _]. apply in_seq in Hj.
         eapply NoDup_nth_inj; [exact NX| | |exact Hij]; lia. }
    rewrite R in W. assert (SS : StronglySorted lt (map Z.to_nat zs)) by (rewrite W; apply filter_ssorted, seq_ssorted).
    clear -SS Hz. apply StronglySorted_Sorted. induction zs as [|z zs IH]; [constructor|]. inversion SS; subst. inversion Hz; subst.
    constructor; [auto|]. rewrite Forall_forall in *. intros w Hw. specialize (H2 (Z.to_nat w) (in_map _ _ _ Hw)). specialize (H4 _ Hw). lia.
  - intros Hs. pose proof (C36_starts_aligned d HA) as V.
    assert (P : proper_arguments (everything d) (KeepRows zs)) by (split; [assumption|simpl; rewrite seq_length; assumption]).
    pose proof (C36_operation_keeps_alignment d d (everything d) (KeepRows zs) d' (Ok tt) V HS P E) as (p' & (_ & PX & PY) & V' & _).
    exists (o_rows p'). destruct p' as [a b c]; simpl in *; subst. exact V'.
Qed.
(** both directions are inhabited, and out of order the labels really are wrong *)
Example C37_sample :
  NoDup (dm_row_labels sample) /\ NoDup (sm_rows (dm_X sample)) /\
  snd (keep_rows sample [0; 2]%Z) = Ok tt /\ snd (keep_rows sample [2; 0]%Z) = Ok tt.
Proof.
  split; [|split; [|split; reflexivity]]; repeat constructor; simpl; intros H;
  repeat (destruct H as [H|H]; [discriminate|]); destruct H.
Qed.
Theorem C37_unsorted_refuted :
  dm_row_labels (fst (keep_rows sample [2; 0]%Z)) = [txt 102; txt 100] /\
  sm_rows (dm_X (fst (keep_rows sample [2; 0]%Z))) = [[1; 0; 2]; [1; 1; 4]]%Z /\
  dm_row_labels (fst (keep_rows sample [1; 1]%Z)) = [txt 101; txt 101] /\
  sm_rows (dm_X (fst (keep_rows sample [1; 1]%Z))) = [[0; 1; 3]]%Z.
Proof. repeat split. Qed.

(** ** C39 a final dataset is immutable *)
Definition modifies (o : op) : Prop :=
  match o with
  | DeleteRow _ | KeepRows _ | DeleteColumnsX _ | DeleteColumnsY _ | DeleteColumnX _ | DeleteColumnY _ => True
  | _ => False
  end.
(** C39.  After finalize(), every deletion raises DatasetMatrixFinalizedError and changes nothing,
    whatever sequence of deletions and further finalize() calls is attempted; finalize() itself and
    unfinalize() never change the content. *)
Theorem C39_deletion_refused d o : modifies o -> do_op (finalize d) o = (finalize d, Err MatrixFinalized).
Proof.
  assert (F : dm_final (finalize d) = true) by (unfold finalize; destruct (dm_final d) eqn:E; [assumption|reflexivity]).
  destruct o; simpl; intros H; try destruct H;
  unfold delete_row, keep_rows, delete_columns_X, delete_columns_Y, delete_column_X, delete_column_Y; rewrite F; reflexivity.
Qed.
Lemma finalize_idem d : finalize (finalize d) = finalize d.
Proof. unfold finalize at 1. destruct (dm_final (finalize d)) eqn:E; [reflexivity|]. unfold finalize in E. destruct (dm_final d) eqn:E'; [congruence|discriminate]. Qed.
Theorem C39_any_history d os : Forall (fun o => modifies o \/ o = Finalize) os -> run_ops (finalize d) os = finalize d.
Proof.
  induction 1 as [|o os [Ho| ->] HF IH]; [reflexivity| |]; unfold run_ops in *; cbn [fold_left].
  - rewrite C39_deletion_refused by assumption. exact IH.
  - cbn [do_op fst]. rewrite finalize_idem. exact IH.
Qed.
Theorem C39_content_kept d :
  sm_rows (dm_X (finalize d)) = sm_rows (dm_X d) /\ sm_rows (dm_Y (finalize d)) = sm_rows (dm_Y d) /\
  dm_row_labels (finalize d) = dm_row_labels d /\ dm_labels_X (finalize d) = dm_labels_X d /\ dm_labels_Y (finalize d) = dm_labels_Y d /\
  sm_rows (dm_X (unfinalize d)) = sm_rows (dm_X d) /\ sm_rows (dm_Y (unfinalize d)) = sm_rows (dm_Y d) /\
  dm_row_labels (unfinalize d) = dm_row_labels d /\ dm_labels_X (unfinalize d) = dm_labels_X d /\ dm_labels_Y (unfinalize d) = dm_labels_Y d /\
  dm_final (finalize d) = true /\ dm_final (unfinalize d) = false.
Proof. unfold finalize. destruct (dm_final d) eqn:E; repeat split; try assumption; reflexivity. Qed.
(** unfinalize() is the way back: afterwards deletions of existing rows work again *)
Theorem C39_unfinalize_allows d r :
  aligned d -> (- Z.of_nat (length (dm_row_labels d)) <= r < Z.of_nat (length (dm_row_labels d)))%Z ->
  snd (delete_row (unfinalize (finalize d)) r) = Ok tt.
Proof.
  intros HA Hr. set (d1 := unfinalize (finalize d)).
  assert (A1 : aligned d1 /\ length (dm_row_labels d1) = length (dm_row_labels d)).
  { unfold d1, finalize. destruct (dm_final d); (split; [exact HA|reflexivity]). }
  destruct A1 as [A1 L1].
  apply (C36_calls_succeed d1 A1); [reflexivity|reflexivity|reflexivity|]. rewrite L1. exact Hr.
Qed.
(** a dataset selected from a final one is not final, but deletions from it fail all the same (it
    is still stored by columns) until finalize/unfinalize is called *)
Theorem C39_selected_from_final d zs label d' r :
  aligned d -> dm_final d = false -> select_rows (finalize d) zs label = Ok d' ->
  dm_final d' = false /\ delete_row d' r = (d', Err ValueError).
Proof.
  intros HA Hf E. unfold select_rows in E. destruct zs; [discriminate|].
  apply bind_ok in E as (X' & EX & E). apply bind_ok in E as (Y' & EY & E). apply bind_ok in E as (lb & EL & E). inversion E; subst; clear E.
  split; [reflexivity|]. unfold delete_row. cbn [dm_final dm_X]. rewrite delete_csc; [reflexivity|].
  unfold take_rows in EX. apply bind_ok in EX as (rs & _ & EX). inversion EX; subst. unfold finalize. rewrite Hf. reflexivity.
Qed.
