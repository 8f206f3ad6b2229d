(** C63: datasets alive at the same time do not affect each other.
    C64: the variables taken from a dataset. *)
From Coq Require Import String.
From Verif Require Import Base Matrix_Model Matrix_Spec Matrix_Proofs Matrix_Properties Heap_Model Heap_Spec Heap_Proofs.

(** ** C63 *)
(** a new dataset shares nothing, and shows what it was made of *)
Theorem C63_one_dataset d : separate (one_dataset d) /\ values (one_dataset d) = [d].
Proof.
  split; [|destruct d; reflexivity].
  assert (NE : forall i h, nth_error (w_ds (one_dataset d)) i = Some h -> i = 0 /\ h = HDs (dm_label d) 0 1 0 1 2 (dm_final d)).
  { intros [|[|i]] h H; cbn in H; inversion H; auto. }
  split; [|split; [|split]].
  - intros i h a H. apply NE in H as (-> & ->). destruct a; cbn; lia.
  - intros i h a H. apply NE in H as (-> & ->). destruct a; cbn; lia.
  - intros i j h h' a b H H' EQ. apply NE in H as (-> & ->). apply NE in H' as (-> & ->).
    split; [reflexivity |]. destruct a, b; cbn in EQ; try discriminate; reflexivity.
  - intros i j h h' a b H H' EQ. apply NE in H as (-> & ->). apply NE in H' as (-> & ->).
    split; [reflexivity |]. destruct a, b; cbn in EQ; try discriminate; reflexivity.
Qed.

(** nothing the library does makes two datasets share an object *)
Theorem C63_never_shared w acts : separate w -> separate (h_run w acts).
Proof.
  revert w; induction acts as [|a acts IH]; intros w SEP; cbn [h_run fold_left]; [exact SEP |].
  apply IH. apply step_values; exact SEP.
Qed.

(** C63.  Any program - any sequence of method calls on any of the living datasets, selections that
    make new datasets, in-place writes to entries and labels by the caller - shows, dataset by
    dataset, what it would show if every dataset were a value of its own. *)
Theorem C63_as_if_alone w acts : separate w -> values (h_run w acts) = value_run (values w) acts.
Proof.
  revert w; induction acts as [|a acts IH]; intros w SEP; cbn [h_run value_run fold_left]; [reflexivity |].
  destruct (step_values w a SEP) as (SEP' & V).
  change (values (h_run (fst (h_step w a)) acts) = value_run (value_step (values w) a) acts).
  rewrite IH by exact SEP'. now rewrite V.
Qed.

Lemma value_step_other ds a j d : nth_error ds j = Some d -> ~ changes a j -> nth_error (value_step ds a) j = Some d.
Proof.
  intros E N. assert (L : j < length ds) by (apply nth_error_Some; congruence).
  assert (R : forall i x, nth_error ds i <> None -> i <> j -> nth_error (replace i x ds) j = Some d).
  { intros i x Hi Nij. apply nth_error_Some in Hi. rewrite nth_error_replace by exact Hi.
    destruct (Nat.eqb_spec j i); [congruence | exact E]. }
  destruct a as [i o | i s r c v | i which k t | i s c | k]; cbn [value_step changes] in *; try exact E.
  - destruct (nth_error ds i) as [di|] eqn:Ei; [|exact E].
    destruct (selects o) as [sel|] eqn:ES.
    + destruct (sel di); [rewrite nth_error_app1 by exact L |]; exact E.
    + apply R; [congruence |]. intros ->. apply N; auto.
  - destruct (nth_error ds i) as [di|] eqn:Ei; [|exact E].
    destruct (match s with SideX => _ | SideY => _ end); [|exact E]. apply R; congruence.
  - destruct (nth_error ds i) as [di|] eqn:Ei; [|exact E].
    destruct (write_label di which k t); [|exact E]. apply R; congruence.
Qed.

(** C63.  A dataset is changed only by the calls on it and the writes to it: whatever a program does
    to other datasets - including those selected from this one, and the one it was selected from -
    it shows the same label, data, labels and final flag as before. *)
Theorem C63_others_untouched w acts j d : separate w -> observe w j = Some d ->
  Forall (fun a => ~ changes a j) acts -> observe (h_run w acts) j = Some d.
Proof.
  intros SEP O F. rewrite <- observe_values, C63_as_if_alone by exact SEP. rewrite <- observe_values in O.
  revert F O. generalize (values w). induction acts as [|a acts IH]; intros ds F O; cbn [value_run fold_left]; [exact O |].
  inversion F; subst. apply IH; [assumption |]. apply value_step_other; assumption.
Qed.

(** C63.  A selection gives a new dataset with the selected rows or columns and leaves the old ones
    as they are; a failed one raises the exception and leaves everything. *)
Theorem C63_selection w i o sel d : separate w -> observe w i = Some d -> selects o = Some sel ->
  let '(w', r) := h_step w (Call i o) in
  (forall j, j < length (w_ds w) -> observe w' j = observe w j) /\
  match sel d with
  | Ok d' => r = Ok tt /\ observe w' (length (w_ds w)) = Some d' /\ length (w_ds w') = Datatypes.S (length (w_ds w))
  | Err e => r = Err e /\ length (w_ds w') = length (w_ds w)
  end.
Proof.
  intros SEP O ES. destruct (observe_stands _ _ _ SEP O) as (h & ST). cbn [h_step]. rewrite (proj1 (proj2 ST)).
  destruct (call_selects _ _ _ _ _ _ ST ES) as (_ & _ & A & B). destruct (h_call w i h o) as [w' r]. split; [exact A |].
  destruct (sel d); exact B.
Qed.
(** C63.  A call that changes a dataset has the effect and the outcome it has on a dataset alone. *)
Theorem C63_change w i o d : separate w -> observe w i = Some d -> selects o = None ->
  let '(w', r) := h_step w (Call i o) in
  observe w' i = Some (fst (do_op d o)) /\ r = snd (do_op d o) /\ (forall j, j <> i -> observe w' j = observe w j).
Proof.
  intros SEP O ES. destruct (observe_stands _ _ _ SEP O) as (h & ST). cbn [h_step]. rewrite (proj1 (proj2 ST)).
  destruct (call_changes _ _ _ _ _ ST ES) as (h' & (_ & E' & C') & (OT & _) & R). destruct (h_call w i h o) as [w' r].
  cbn [fst snd] in *. split; [|split; [exact R | exact OT]]. unfold observe. rewrite E'. cbn. congruence.
Qed.

(** C63 with C36: programs that only call methods, with proper arguments *)
Fixpoint proper_program (ds : list dmatrix) (acts : list action) : Prop :=
  match acts with
  | [] => True
  | a :: acts' =>
    match a with
    | Call i o => forall d, nth_error ds i = Some d -> proper_arguments (everything d) o
    | WriteEntry _ _ _ _ _ | WriteLabel _ _ _ _ => False
    | GetVariable _ _ _ | Instances _ => True
    end /\ proper_program (value_step ds a) acts'
  end.
Lemma Forall_replace {A} (P : A -> Prop) i x l : P x -> Forall P l -> Forall P (replace i x l).
Proof. intros Hx H. revert i. induction H; intros [|i]; cbn; auto. Qed.
(** every dataset alive at the end shows original rows and columns, each with its original label *)
Theorem C63_every_dataset_aligned d0 acts : aligned d0 -> same_storage d0 -> proper_program [d0] acts ->
  forall j d, observe (h_run (one_dataset d0) acts) j = Some d -> exists p, view_of d0 d p.
Proof.
  intros HA HS HP j d O. destruct (C63_one_dataset d0) as (SEP & V0).
  rewrite <- observe_values, C63_as_if_alone, V0 in O by exact SEP.
  assert (G : forall ds, Forall (fun d => (exists p, view_of d0 d p) /\ same_storage d) ds -> proper_program ds acts ->
              Forall (fun d => (exists p, view_of d0 d p) /\ same_storage d) (value_run ds acts)).
  { clear O HP. induction acts as [|a acts IH]; intros ds F HP; cbn [value_run fold_left]; [exact F |].
    destruct HP as [Ha HP]. apply IH; [|exact HP].
    destruct a as [i o | i s r c v | i which k t | i s c | k]; try contradiction; cbn [value_step]; try exact F.
    destruct (nth_error ds i) as [di|] eqn:Ei; [|exact F]. specialize (Ha _ eq_refl).
    assert (Fi := proj1 (Forall_forall _ _) F di (nth_error_In _ _ Ei)). destruct Fi as ((p & V) & S).
    assert (Ho' : proper_arguments p o).
    { eapply proper_lengths; [|exact Ha]. simpl. rewrite seq_length. dview V. rewrite VR. apply map_length. }
    destruct (do_op di o) as [d' r] eqn:ED. pose proof (C36_operation_keeps_alignment d0 di p o d' r V S Ho' ED) as G.
    destruct (selects o) as [sel|] eqn:ES.
    - assert (sel di = match r with Ok _ => Ok d' | Err e => Err e end) as ->.
      { destruct o; try discriminate; cbn in ES; inversion ES; subst sel; cbn in ED.
        - destruct (select_rows di rows label); inversion ED; reflexivity.
        - destruct (select_columns_X di cols label); inversion ED; reflexivity. }
      destruct r; [|exact F]. destruct G as (p' & _ & V' & S'). apply Forall_app. split; [exact F |].
      constructor; [|constructor]. split; [exists p'; exact V' | exact S'].
    - cbn [fst]. destruct r.
      + destruct G as (p' & _ & V' & S'). apply Forall_replace; [|exact F]. split; [exists p'; exact V' | exact S'].
      + subst d'. apply Forall_replace; [|exact F]. split; [exists p; exact V | exact S]. }
  assert (H := G [d0]). refine (proj1 (proj1 (Forall_forall _ _) (H _ HP) d (nth_error_In _ _ O))).
  constructor; [|constructor]. split; [exists (everything d0); apply C36_starts_aligned; exact HA | exact HS].
Qed.

(** *** the list that get_column_labels returns is the dataset's own (140-155) *)
(** the reference it returns *)
Definition labels_reference (w : world) (i : nat) (s : side) : option loc :=
  option_map (fun h => h_labels (side_labels s) h) (nth_error (w_ds w) i).
(** a list obtained earlier follows delete_column_X ... *)
Theorem C63_labels_list_follows w i s d c l :
  separate w -> observe w i = Some d -> labels_reference w i s = Some l ->
  let o := match s with SideX => DeleteColumnX c | SideY => DeleteColumnY c end in
  get_list (fst (h_step w (Call i o))) l = labels_of s (fst (do_op d o)).
Proof.
  intros SEP O R o. destruct (observe_stands _ _ _ SEP O) as (h & ST).
  unfold labels_reference in R. rewrite (proj1 (proj2 ST)) in R. cbn in R. inversion R; subst l; clear R.
  assert (ES : selects o = None) by (destruct s; reflexivity).
  destruct (call_changes _ _ _ _ _ ST ES) as (h' & ST' & _ & _).
  assert (E1 : h_labels (side_labels s) h' = h_labels (side_labels s) h).
  { destruct ST' as (_ & E' & _). destruct ST as (_ & E & _). destruct s; subst o; cbn [h_call] in E'.
    - unfold h_delete_column_X in E'. destruct (h_final h); [cbn in E'; congruence |].
      destruct (h_delete_rows_cols w (h_X h) [] [c]) as [[w1 x]|e] eqn:ED; [|cbn in E'; congruence].
      assert (E1 : nth_error (w_ds w1) i = Some h).
      { unfold h_delete_rows_cols in ED. destruct (delete_rows_cols (get_mat w (h_X h)) [] [c]); [|discriminate]. cbn in ED.
        inversion ED; subst; exact E. }
      cbn [step_res] in E'. destruct (py_del _ c); cbn in E'; rewrite nth_error_modify, Nat.eqb_refl, E1 in E';
        cbn in E'; inversion E'; reflexivity.
    - unfold h_delete_column_Y in E'. destruct (h_final h); [cbn in E'; congruence |].
      destruct (h_delete_rows_cols w (h_Y h) [] [c]) as [[w1 x]|e] eqn:ED; [|cbn in E'; congruence].
      assert (E1 : nth_error (w_ds w1) i = Some h).
      { unfold h_delete_rows_cols in ED. destruct (delete_rows_cols (get_mat w (h_Y h)) [] [c]); [|discriminate]. cbn in ED.
        inversion ED; subst; exact E. }
      cbn [step_res] in E'. destruct (py_del _ c); cbn in E'; rewrite nth_error_modify, Nat.eqb_refl, E1 in E';
        cbn in E'; inversion E'; reflexivity. }
  cbn [h_step]. rewrite (proj1 (proj2 ST)). rewrite <- E1.
  rewrite (stands_labels _ _ _ _ (side_labels s) ST'). destruct s; reflexivity.
Qed.
(** ... but still shows the old labels after delete_columns_X *)
Theorem C63_labels_list_stays w i s d cs l :
  separate w -> observe w i = Some d -> labels_reference w i s = Some l ->
  get_list (fst (h_step w (Call i (match s with SideX => DeleteColumnsX cs | SideY => DeleteColumnsY cs end)))) l = labels_of s d.
Proof.
  intros SEP O R. destruct (observe_stands _ _ _ SEP O) as (h & ST).
  unfold labels_reference in R. rewrite (proj1 (proj2 ST)) in R. cbn in R. inversion R; subst l; clear R.
  cbn [h_step]. rewrite (proj1 (proj2 ST)).
  assert (G : labels_of s d = get_list w (h_labels (side_labels s) h)).
  { rewrite (stands_labels _ _ _ _ (side_labels s) ST). destruct s; reflexivity. }
  rewrite G.
  assert (B := proj1 (proj1 ST) _ _ (side_labels s) (proj1 (proj2 ST))).
  destruct s; cbn [h_call].
  - unfold h_delete_columns_X. destruct (h_final h); [reflexivity |].
    destruct (h_delete_rows_cols w (h_X h) [] (sort_Z cs)) as [[w1 x]|e] eqn:ED; [|reflexivity].
    assert (w_lists w1 = w_lists w) as EL.
    { unfold h_delete_rows_cols in ED. destruct (delete_rows_cols (get_mat w (h_X h)) [] (sort_Z cs)); [|discriminate]. cbn in ED.
      destruct (sort_Z cs); inversion ED; reflexivity. }
    cbn. unfold get_list; cbn. rewrite EL. apply app_nth1. exact B.
  - unfold h_delete_columns_Y. destruct (h_final h); [reflexivity |].
    destruct (h_delete_rows_cols w (h_Y h) [] (sort_Z cs)) as [[w1 x]|e] eqn:ED; [|reflexivity].
    assert (w_lists w1 = w_lists w) as EL.
    { unfold h_delete_rows_cols in ED. destruct (delete_rows_cols (get_mat w (h_Y h)) [] (sort_Z cs)); [|discriminate]. cbn in ED.
      destruct (sort_Z cs); inversion ED; reflexivity. }
    cbn. unfold get_list; cbn. rewrite EL. apply app_nth1. exact B.
Qed.

(** *** concrete programs: select, then change the original and the selection *)
Definition program : list action :=
  [Call 0 (SelectRows [0; 2]%Z "part"); Call 0 (DeleteColumnX 1%Z); Call 1 (DeleteRow 0%Z);
   Call 1 (SelectColumnsX [0; 2]%Z ""); WriteEntry 2 SideY 0%Z 0%Z 7%Z; WriteLabel 2 RowLabels 0%Z (txt 9); Call 0 Finalize].
Example C63_program :
  values (h_run (one_dataset sample) program) =
  [DMat "sample" (SMat CSC 2 [[1; 2]; [0; 3]; [1; 4]]%Z) (SMat CSC 1 [[0]; [1]; [1]]%Z)
        [txt 100; txt 101; txt 102] [txt 200; txt 202] [txt 300] true;
   DMat "part" (SMat CSR 3 [[1; 1; 4]]%Z) (SMat CSR 1 [[1]]%Z) [txt 102] [txt 200; txt 201; txt 202] [txt 300] false;
   DMat "part" (SMat CSR 2 [[1; 4]]%Z) (SMat CSR 1 [[7]]%Z) [txt 9] [txt 200; txt 202] [txt 300] false].
Proof. vm_compute. reflexivity. Qed.
Example C63_program_others :
  Forall (fun a => ~ changes a 0) [Call 0 (SelectRows [0; 2]%Z "part"); Call 1 (DeleteRow 0%Z); WriteLabel 1 LabelsX 0%Z (txt 9)].
Proof. repeat constructor; cbn; intuition discriminate. Qed.
Example C63_program_proper : proper_program [sample]
  [Call 0 (SelectRows [0; 2]%Z "part"); Call 0 (DeleteColumnsX [1]%Z); Call 1 (DeleteRow 0%Z); Call 1 (KeepRows [0]%Z)].
Proof.
  cbn [proper_program]. split; [intros d _; exact Logic.I |]. split; [intros d _; repeat constructor; lia |].
  split; [intros d _; exact Logic.I |]. split; [|exact Logic.I].
  intros d H. vm_compute in H. inversion H. cbn. repeat constructor; lia.
Qed.

(** ** C64 *)
Lemma step_vars w a k : separate w -> a <> Instances k ->
  forall x, nth_error (w_vars w) k = Some x -> nth_error (w_vars (fst (h_step w a))) k = Some x.
Proof.
  intros SEP N x E. destruct a as [i o | i s r c v | i which q t | i s c | q]; cbn [h_step].
  - destruct (nth_error (w_ds w) i) as [h|] eqn:Ei; [|exact E].
    assert (ST : stands w i h (content w h)) by (split; [exact SEP | split; [exact Ei | reflexivity]]).
    destruct (selects o) as [sel|] eqn:ES.
    + destruct (selected_values _ _ _ (call_selects _ _ _ _ _ _ ST ES)) as (_ & _ & ->). exact E.
    + destruct (achieves_values _ _ _ _ _ _ ST (call_changes _ _ _ _ _ ST ES)) as (_ & _ & ->). exact E.
  - destruct (nth_error (w_ds w) i); [|exact E]. destruct (set_entry _ r c v); exact E.
  - destruct (nth_error (w_ds w) i); [|exact E]. destruct (set_label _ q t); exact E.
  - destruct (nth_error (w_ds w) i); [|exact E]. destruct (py_get _ c); [|exact E]. cbn.
    rewrite nth_error_app1; [exact E | apply nth_error_Some; congruence].
  - destruct (nth_error (w_vars w) q) as [y|]; [|exact E]. unfold h_instances.
    destruct (v_cache y); [exact E |]. destruct (nth_error (w_ds w) (v_ds y)); [|exact E].
    destruct (get_column _ (v_col y)); [|exact E]. cbn. rewrite nth_error_modify.
    destruct (Nat.eqb_spec k q); [congruence | exact E].
Qed.
(** an action never changes the name, the dataset or the column of a variable, nor loaded instances *)
Lemma step_var_kept w a k x : separate w -> nth_error (w_vars w) k = Some x ->
  exists x', nth_error (w_vars (fst (h_step w a))) k = Some x' /\
    v_name x' = v_name x /\ v_ds x' = v_ds x /\ v_side x' = v_side x /\ v_col x' = v_col x /\
    (forall l, v_cache x = Some l -> v_cache x' = Some l).
Proof.
  intros SEP E. assert (D : {a = Instances k} + {a <> Instances k}).
  { destruct a as [i o | i s r c v | i which q t | i s c | q]; try (right; congruence).
    destruct (Nat.eq_dec q k); [left | right]; congruence. }
  destruct D as [-> | N].
  2:{ exists x. split; [apply step_vars; assumption |]. repeat split; auto. }
  cbn [h_step]. rewrite E. unfold h_instances. destruct (v_cache x) as [l0|] eqn:EC; [cbn; exists x; repeat split; auto; congruence |].
  destruct (nth_error (w_ds w) (v_ds x)) as [h|]; [|cbn; exists x; repeat split; auto; congruence].
  destruct (get_column _ (v_col x)) as [l|e]; [|cbn; exists x; repeat split; auto; congruence].
  cbn. rewrite nth_error_modify, Nat.eqb_refl, E. cbn. eexists. split; [reflexivity |]. repeat split. congruence.
Qed.
Lemma run_var_kept w acts k x : separate w -> nth_error (w_vars w) k = Some x ->
  exists x', nth_error (w_vars (h_run w acts)) k = Some x' /\
    v_name x' = v_name x /\ v_ds x' = v_ds x /\ v_side x' = v_side x /\ v_col x' = v_col x /\
    (forall l, v_cache x = Some l -> v_cache x' = Some l).
Proof.
  revert w x; induction acts as [|a acts IH]; intros w x SEP E; cbn [h_run fold_left]; [exists x; repeat split; auto |].
  destruct (step_var_kept w a k x SEP E) as (x1 & E1 & A1 & A2 & A3 & A4 & A5).
  destruct (IH (fst (h_step w a)) x1 (proj1 (step_values w a SEP)) E1) as (x2 & E2 & B1 & B2 & B3 & B4 & B5).
  exists x2. split; [exact E2 |]. repeat split; try congruence. auto.
Qed.
Lemma run_vars_other w acts k x : separate w -> Forall (fun a => a <> Instances k) acts ->
  nth_error (w_vars w) k = Some x -> nth_error (w_vars (h_run w acts)) k = Some x.
Proof.
  revert w; induction acts as [|a acts IH]; intros w SEP F E; cbn [h_run fold_left]; [exact E |].
  inversion F; subst. apply IH; [apply step_values; exact SEP | assumption | apply step_vars; assumption].
Qed.
Lemma get_variable_step w i s c d : separate w -> observe w i = Some d ->
  snd (h_step w (GetVariable i s c)) = Ok tt ->
  exists name, py_get (labels_of s d) c = Ok name /\
    fst (h_step w (GetVariable i s c)) = World (w_lists w) (w_mats w) (w_ds w) (w_vars w ++ [HVar name i s c None]).
Proof.
  intros SEP O R. destruct (observe_stands _ _ _ SEP O) as (h & ST). cbn [h_step] in *. rewrite (proj1 (proj2 ST)) in *.
  rewrite (stands_labels _ _ _ _ (side_labels s) ST) in *.
  replace (labels_of s d) with (dlabels (side_labels s) d) by (destruct s; reflexivity).
  destruct (py_get (dlabels (side_labels s) d) c) as [name|e]; cbn in *; [|discriminate]. exists name; auto.
Qed.
Lemma separate_vars w v : separate w -> separate (World (w_lists w) (w_mats w) (w_ds w) v).
Proof. intros H; exact H. Qed.

(** C64.  A variable taken for column c of a dataset keeps the name that column had at that moment;
    its instances are those of column c of the dataset as it is when they are first asked for. *)
Theorem C64_first_read w i s c d acts :
  separate w -> observe w i = Some d -> snd (h_step w (GetVariable i s c)) = Ok tt ->
  let k := length (w_vars w) in
  Forall (fun a => a <> Instances k) acts ->
  let w2 := h_run (fst (h_step w (GetVariable i s c))) acts in
  exists name d2, py_get (labels_of s d) c = Ok name /\ name_now w2 k = Some name /\
    nth_error (value_run (values w) acts) i = Some d2 /\ instances_now w2 k = get_column (matrix_of s d2) c.
Proof.
  intros SEP O R k F w2. destruct (get_variable_step _ _ _ _ _ SEP O R) as (name & N & E). subst w2. rewrite E.
  set (w1 := World (w_lists w) (w_mats w) (w_ds w) (w_vars w ++ [HVar name i s c None])).
  assert (SEP1 : separate w1) by exact SEP.
  assert (E1 : nth_error (w_vars w1) k = Some (HVar name i s c None)).
  { subst w1 k; cbn. rewrite nth_error_app2, Nat.sub_diag by lia. reflexivity. }
  pose proof (run_vars_other _ _ _ _ SEP1 F E1) as E2.
  assert (V : values (h_run w1 acts) = value_run (values w) acts) by (rewrite C63_as_if_alone by exact SEP1; reflexivity).
  assert (exists d2, observe (h_run w1 acts) i = Some d2) as (d2 & O2).
  { rewrite <- observe_values. rewrite V. clear -O. rewrite <- observe_values in O. revert O. generalize (values w) d.
    induction acts as [|a acts IH]; intros ds d0 O; cbn [value_run fold_left]; [eauto |].
    assert (exists d1, nth_error (value_step ds a) i = Some d1) as (d1 & E); [|eapply IH; exact E].
    assert (L : length ds <= length (value_step ds a)).
    { destruct a as [j o | j s r c v | j which q t | j s c | q]; cbn [value_step]; auto.
      - destruct (nth_error ds j); auto. destruct (selects o); [destruct (r d1); [rewrite app_length; lia | auto] | rewrite replace_length; auto].
      - destruct (nth_error ds j); auto. destruct (match s with SideX => _ | SideY => _ end); [rewrite replace_length |]; auto.
      - destruct (nth_error ds j); auto. destruct (write_label _ _ _ _); [rewrite replace_length |]; auto. }
    destruct (nth_error (value_step ds a) i) eqn:E; [eauto |]. apply nth_error_None in E.
    assert (i < length ds) by (apply nth_error_Some; congruence). lia. }
  exists name, d2. split; [exact N |]. split; [unfold name_now; now rewrite E2 |]. split; [rewrite <- V, observe_values; exact O2 |].
  unfold instances_now. rewrite E2. unfold h_instances. cbn [v_cache v_ds v_side v_col].
  destruct (observe_stands _ _ _ (C63_never_shared _ acts SEP1) O2) as (h2 & ST2). rewrite (proj1 (proj2 ST2)).
  rewrite (stands_mat _ _ _ _ s ST2). destruct s; cbn [dmat matrix_of]; destruct (get_column _ c); reflexivity.
Qed.

(** C64.  Once read, the instances of a variable never change, whatever is done to any dataset; nor
    does the name. *)
Theorem C64_later_reads w k l acts : separate w -> instances_now w k = Ok l ->
  instances_now (h_run (fst (h_step w (Instances k))) acts) k = Ok l.
Proof.
  intros SEP R. unfold instances_now in R. destruct (nth_error (w_vars w) k) as [x|] eqn:E; [|discriminate].
  assert (exists x', nth_error (w_vars (fst (h_step w (Instances k)))) k = Some x' /\ v_cache x' = Some l) as (x' & E' & C').
  { cbn [h_step]. rewrite E. unfold h_instances in *. destruct (v_cache x) as [l0|] eqn:EC.
    - cbn in *. exists x. split; [exact E | congruence].
    - destruct (nth_error (w_ds w) (v_ds x)) as [h|]; [|discriminate]. destruct (get_column _ (v_col x)) as [l1|e]; [|discriminate].
      cbn in *. rewrite nth_error_modify, Nat.eqb_refl, E. cbn. eexists. split; [reflexivity |]. cbn. congruence. }
  destruct (run_var_kept _ acts _ _ (proj1 (step_values w (Instances k) SEP)) E') as (x2 & E2 & _ & _ & _ & _ & C2).
  unfold instances_now. rewrite E2. unfold h_instances. rewrite (C2 _ C'). reflexivity.
Qed.
Theorem C64_name_kept w k t acts : separate w -> name_now w k = Some t -> name_now (h_run w acts) k = Some t.
Proof.
  intros SEP H. unfold name_now in *. destruct (nth_error (w_vars w) k) as [x|] eqn:E; [|discriminate].
  destruct (run_var_kept _ acts _ _ SEP E) as (x2 & -> & N & _). cbn in *. congruence.
Qed.

Lemma get_column_ok m nr nc p : rectangular m nr nc -> p < nc -> get_column m (Z.of_nat p) = Ok (column_of m p).
Proof.
  intros (R1 & R2 & R3) L. unfold get_column, column_of, py_index. rewrite R2.
  replace (0 <=? Z.of_nat p)%Z with true by (symmetry; apply Z.leb_le; lia).
  replace (Z.of_nat p <? Z.of_nat nc)%Z with true by (symmetry; apply Z.ltb_lt; lia). cbn [andb bind]. rewrite Nat2Z.id.
  clear R1. induction R3 as [|row rows Hr F IH]; [reflexivity |]. cbn [mapM map].
  rewrite (nth_error_nth' row 0%Z) by lia. cbn [of_option bind]. rewrite IH. reflexivity.
Qed.
Lemma py_get_ok {A} (l : list A) p dflt : p < length l -> py_get l (Z.of_nat p) = Ok (nth p l dflt).
Proof.
  intros L. unfold py_get, py_index.
  replace (0 <=? Z.of_nat p)%Z with true by (symmetry; apply Z.leb_le; lia).
  replace (Z.of_nat p <? Z.of_nat (length l))%Z with true by (symmetry; apply Z.ltb_lt; lia). cbn [andb bind]. rewrite Nat2Z.id.
  rewrite (nth_error_nth' l dflt) by lia. reflexivity.
Qed.

(** C64.  As long as nothing has changed the dataset, a variable taken for column p gives the data of
    the column that carries its name. *)
Theorem C64_name_matches_data w i s p d acts :
  separate w -> observe w i = Some d -> aligned d -> p < length (labels_of s d) ->
  let k := length (w_vars w) in
  Forall (fun a => ~ changes a i /\ a <> Instances k) acts ->
  let w2 := h_run (fst (h_step w (GetVariable i s (Z.of_nat p)))) acts in
  name_now w2 k = Some (label_at (labels_of s d) p) /\ instances_now w2 k = Ok (column_of (matrix_of s d) p).
Proof.
  intros SEP O AL L k F w2.
  assert (R : snd (h_step w (GetVariable i s (Z.of_nat p))) = Ok tt).
  { destruct (observe_stands _ _ _ SEP O) as (h & ST). cbn [h_step]. rewrite (proj1 (proj2 ST)).
    rewrite (stands_labels _ _ _ _ (side_labels s) ST).
    replace (dlabels (side_labels s) d) with (labels_of s d) by (destruct s; reflexivity).
    rewrite (py_get_ok (A:=text) _ _ [] L). reflexivity. }
  assert (F1 : Forall (fun a => a <> Instances k) acts) by (eapply Forall_impl; [|exact F]; cbn; tauto).
  assert (F2 : Forall (fun a => ~ changes a i) acts) by (eapply Forall_impl; [|exact F]; cbn; tauto).
  destruct (C64_first_read w i s (Z.of_nat p) d acts SEP O R F1) as (name & d2 & N & NN & V & I).
  rewrite (py_get_ok (A:=text) _ _ [] L) in N. inversion N; subst name. split; [exact NN |]. fold w2 in I. fold k in I. rewrite I.
  assert (d2 = d) as ->.
  { assert (X := C63_others_untouched w acts i d SEP O F2). rewrite <- observe_values, C63_as_if_alone in X by exact SEP. congruence. }
  destruct AL as (AX & AY). destruct s; cbn [matrix_of labels_of] in *; eapply get_column_ok; eassumption.
Qed.

Lemma drop_from_above {A} p k (l : list A) : p < k -> drop_from [p] k l = l.
Proof.
  revert k; induction l as [|x l IH]; intros k H; [reflexivity |]. rewrite drop_from_cons.
  replace (mem k [p]) with false by (cbn; destruct (Nat.eqb_spec k p); [lia | reflexivity]). cbn. f_equal. apply IH; lia.
Qed.
Lemma drop_from_one {A} q k (l : list A) : drop_from [k + q] k l = firstn q l ++ skipn (Datatypes.S q) l.
Proof.
  revert q k; induction l as [|x l IH]; intros q k; [destruct q; reflexivity |]. rewrite drop_from_cons. destruct q as [|q].
  - rewrite Nat.add_0_r. replace (mem k [k]) with true by (cbn; now rewrite Nat.eqb_refl). cbn. apply drop_from_above; lia.
  - replace (mem k [k + Datatypes.S q]) with false by (cbn [mem existsb]; destruct (Nat.eqb_spec k (k + Datatypes.S q)); [lia | reflexivity]).
    replace (k + Datatypes.S q) with (Datatypes.S k + q) by lia. rewrite IH. reflexivity.
Qed.
Lemma drop_one {A} (l : list A) p : drop_positions [p] l = firstn p l ++ skipn (Datatypes.S p) l.
Proof. exact (drop_from_one p 0 l). Qed.
Lemma drop_one_length {A} (l : list A) p : p < length l -> length (drop_positions [p] l) = length l - 1.
Proof. intros H. rewrite drop_one, app_length, firstn_length, skipn_length. lia. Qed.
Lemma drop_one_nth {A} (l : list A) p dflt : p < length l -> nth p (drop_positions [p] l) dflt = nth (Datatypes.S p) l dflt.
Proof.
  intros H. rewrite drop_one. rewrite app_nth2; rewrite firstn_length_le by lia; [|lia]. rewrite Nat.sub_diag.
  revert p H; induction l as [|x l IH]; intros p H; cbn in H; [lia |]. destruct p; cbn [skipn nth].
  - destruct l; reflexivity.
  - destruct l as [|y l]; [cbn in H; lia |]. apply (IH p). cbn in *; lia.
Qed.

(** C64 refuted for stale variables: after delete_column_X of its column, a variable that was not
    read before gives, under the name of the deleted column, the data of the next one *)
Theorem C64_stale_variable_refuted w i p d :
  separate w -> observe w i = Some d -> aligned d -> dm_final d = false -> sm_format (dm_X d) = CSR ->
  Datatypes.S p < length (dm_labels_X d) ->
  let k := length (w_vars w) in
  let w2 := h_run w [GetVariable i SideX (Z.of_nat p); Call i (DeleteColumnX (Z.of_nat p))] in
  name_now w2 k = Some (label_at (dm_labels_X d) p) /\ instances_now w2 k = Ok (column_of (dm_X d) (Datatypes.S p)).
Proof.
  intros SEP O AL NF FM L k w2.
  assert (R : snd (h_step w (GetVariable i SideX (Z.of_nat p))) = Ok tt).
  { destruct (observe_stands _ _ _ SEP O) as (h & ST). cbn [h_step]. rewrite (proj1 (proj2 ST)).
    rewrite (stands_labels _ _ _ _ (side_labels SideX) ST). cbn [side_labels dlabels].
    rewrite (py_get_ok (A:=text) _ _ []) by lia. reflexivity. }
  destruct (C64_first_read w i SideX (Z.of_nat p) d [Call i (DeleteColumnX (Z.of_nat p))] SEP O R) as (name & d2 & N & NN & V & I).
  { constructor; [congruence | constructor]. }
  cbn [labels_of] in N. rewrite (py_get_ok (A:=text) _ _ []) in N by lia. inversion N; subst name.
  change (h_run (fst (h_step w (GetVariable i SideX (Z.of_nat p)))) [Call i (DeleteColumnX (Z.of_nat p))]) with w2 in *.
  split; [exact NN |]. fold k in I. rewrite I. cbn [matrix_of].
  cbn [value_run fold_left value_step] in V. rewrite observe_values, O in V. cbn [selects do_op] in V.
  rewrite nth_error_replace, Nat.eqb_refl in V by (rewrite values_length; eapply observe_lt; exact O). inversion V; subst d2; clear V.
  destruct AL as ((A1 & A2 & A3) & _).
  unfold delete_column_X. rewrite NF. unfold delete_rows_cols. rewrite FM. cbn [mapM].
  assert (PI : py_index (sm_ncols (dm_X d)) (Z.of_nat p) = Ok p).
  { unfold py_index. rewrite A2.
    replace (0 <=? Z.of_nat p)%Z with true by (symmetry; apply Z.leb_le; lia).
    replace (Z.of_nat p <? Z.of_nat (length (dm_labels_X d)))%Z with true by (symmetry; apply Z.ltb_lt; lia). cbn [andb]. now rewrite Nat2Z.id. }
  rewrite PI. cbn [bind try_set]. unfold py_del.
  change (dm_labels_X (set_X d ?m)) with (dm_labels_X d). rewrite <- A2, PI. cbn [bind try_set fst].
  match goal with |- get_column ?m _ = _ => change m with (SMat CSR (length (drop_positions [p] (repeat tt (sm_ncols (dm_X d))))) (map (drop_positions [p]) (sm_rows (dm_X d)))) end.
  erewrite (get_column_ok _ _ _ p).
  2:{ split; [reflexivity |]. split; [reflexivity |]. cbn [sm_rows sm_ncols]. apply Forall_forall. intros row Hr.
      apply in_map_iff in Hr as (row0 & <- & Hr). rewrite Forall_forall in A3. specialize (A3 _ Hr).
      rewrite !drop_one_length; rewrite ?repeat_length; lia. }
  2:{ cbn [sm_ncols]. rewrite drop_one_length; rewrite repeat_length; lia. }
  f_equal. unfold column_of. cbn [sm_rows]. rewrite map_map. apply map_ext_in. intros row Hr.
  rewrite Forall_forall in A3. specialize (A3 _ Hr). apply drop_one_nth. lia.
Qed.
Example C64_sample :
  let w2 := h_run (one_dataset sample) [GetVariable 0 SideX 1%Z; Call 0 (DeleteColumnX 1%Z)] in
  name_now w2 0 = Some (txt 201) /\ instances_now w2 0 = Ok [2; 3; 4]%Z /\ snd (h_step (one_dataset sample) (GetVariable 0 SideX 1%Z)) = Ok tt.
Proof. vm_compute. auto. Qed.
