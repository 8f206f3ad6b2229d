(** Lemmas about ExdsObj_Model.v: what the calls do to the objects. *)
From Coq Require Import String QArith.
From Verif Require Import Base Matrix_Model Text_Model Text_Proofs FS_Model FS_Proofs Split_Model Storage_Model Storage_Spec Storage_Proofs Exds_Proofs Exds_Success ExdsObj_Model.
Open Scope nat_scope.
Open Scope string_scope.
Open Scope list_scope.

(** the arguments of get_datasetmatrix, and the labels of the matrices *)
Definition arg (w : which) : string := match w with Full => "full" | Train => "train" | Test => "test" end.
Definition label_of (w : which) : string := match w with Full => "dataset" | Train => "dataset_train" | Test => "dataset_test" end.
(** one of three *)
Definition pick {A} (w : which) (f tr te : A) : A := match w with Full => f | Train => tr | Test => te end.
(** get_datasetmatrix returns the object at address [a], which is [o] *)
Definition returns (x : exds) (w : which) (a : nat) (o : dmobj) : Prop :=
  get_datasetmatrix x (arg w) = Ok (Some a) /\ nth_error (x_heap x) a = Some o.
(** the matrices of the object carry their labels, a final one has both X and Y, and they are three different objects *)
Definition tidy (x : exds) : Prop :=
  (forall w a, get_datasetmatrix x (arg w) = Ok (Some a) ->
     exists o, nth_error (x_heap x) a = Some o /\ j_label o = label_of w /\ (j_final o = true -> j_X o <> None /\ j_Y o <> None)) /\
  (forall w w' a, get_datasetmatrix x (arg w) = Ok (Some a) -> get_datasetmatrix x (arg w') = Ok (Some a) -> w = w').

Lemma get_ref x w : get_datasetmatrix x (arg w) = Ok (ref w x). Proof. destruct w; reflexivity. Qed.
Lemma Ok_inj {A} (a b : A) : Ok a = Ok b -> a = b. Proof. congruence. Qed.
Lemma get_some x w a : get_datasetmatrix x (arg w) = Ok (Some a) <-> ref w x = Some a.
Proof. rewrite get_ref. split; [apply Ok_inj|congruence]. Qed.

(** *** the list of objects *)
Lemma put_at_length h a o : a < length h -> length (put_at h a o) = length h.
Proof. intros H. unfold put_at. rewrite app_length, firstn_length_le by lia. cbn [length]. rewrite skipn_length. lia. Qed.
Lemma put_at_same h a o : a < length h -> nth_error (put_at h a o) a = Some o.
Proof. intros H. unfold put_at. rewrite nth_error_app2 by (rewrite firstn_length_le; lia). rewrite firstn_length_le by lia. rewrite Nat.sub_diag. reflexivity. Qed.
Lemma put_at_other : forall h a b o, a <> b -> a < length h -> nth_error (put_at h a o) b = nth_error h b.
Proof.
  intros h a. revert h. induction a as [|a IH]; intros [|y h] b o N H; cbn [length] in H; try lia.
  - destruct b; [lia|]. reflexivity.
  - destruct b; [reflexivity|]. unfold put_at in *. cbn [firstn skipn app nth_error]. apply (IH h b o); lia.
Qed.
Lemma nth_lt {A} (l : list A) a o : nth_error l a = Some o -> a < length l.
Proof. intros H. apply nth_error_Some. congruence. Qed.

(** *** methods of a DatasetMatrix *)
(** a call keeps the label, and a final matrix with both parts stays one *)
Definition decent (o o' : dmobj) : Prop :=
  j_label o' = j_label o /\ ((j_final o = true -> j_X o <> None /\ j_Y o <> None) -> (j_final o' = true -> j_X o' <> None /\ j_Y o' <> None)).
Lemma decent_refl o : decent o o. Proof. split; auto. Qed.
Lemma decent_trans a b c : decent a b -> decent b c -> decent a c.
Proof. intros (H1 & H2) (H3 & H4). split; [congruence|auto]. Qed.
Lemma finalize_decent o : decent o (fst (dm_finalize o)).
Proof.
  unfold dm_finalize. destruct (j_final o) eqn:E; [apply decent_refl|]. unfold as_dm.
  destruct (j_X o) eqn:EX; [|apply decent_refl]. destruct (j_Y o) eqn:EY; [|apply decent_refl].
  cbn [fst]. rewrite E. unfold finalize. cbn [dm_final]. split; [reflexivity|]. intros _ _. split; discriminate.
Qed.
Lemma read_into_decent {A} s (p : prog A) put st : (forall a o, decent o (put a o)) -> decent (fst st) (fst (read_into s p put st)).
Proof.
  intros H. destruct st as (o & [u|e]); cbn [read_into fst]; [|apply decent_refl].
  destruct (snd (exec s p)); cbn [fst]; [apply H|apply decent_refl].
Qed.
Lemma put_X_decent m o : decent o (put_X m o).
Proof. split; [reflexivity|]. cbn. intros H1 H2. split; [discriminate|apply H1, H2]. Qed.
Lemma put_Y_decent m o : decent o (put_Y m o).
Proof. split; [reflexivity|]. cbn. intros H1 H2. split; [apply H1, H2|discriminate]. Qed.
Lemma put_l_decent f o : (forall o, j_label (f o) = j_label o /\ j_X (f o) = j_X o /\ j_Y (f o) = j_Y o /\ j_final (f o) = j_final o) -> decent o (f o).
Proof. intros H. destruct (H o) as (H1 & H2 & H3 & H4). split; [assumption|]. rewrite H2, H3, H4. auto. Qed.
Lemma load_decent s folder o : decent o (fst (dm_load s folder o)).
Proof.
  unfold dm_load.
  set (st1 := read_into s _ put_X _). set (st2 := read_into s _ put_Y _). set (st3 := read_into s _ put_rows _).
  set (st4 := read_into s _ put_colsX _). set (st5 := read_into s _ put_colsY _).
  assert (H1 : decent o (fst st1)) by (apply (read_into_decent s _ put_X (o, Ok tt)); apply put_X_decent).
  assert (H2 : decent (fst st1) (fst st2)) by (apply read_into_decent; apply put_Y_decent).
  assert (H3 : decent (fst st2) (fst st3)) by (apply read_into_decent; intros a b; apply (put_l_decent (put_rows a)); intros c; repeat split).
  assert (H4 : decent (fst st3) (fst st4)) by (apply read_into_decent; intros a b; apply (put_l_decent (put_colsX a)); intros c; repeat split).
  assert (H5 : decent (fst st4) (fst st5)) by (apply read_into_decent; intros a b; apply (put_l_decent (put_colsY a)); intros c; repeat split).
  assert (H : decent o (fst st5)) by (repeat (eapply decent_trans; [eassumption|]); apply decent_refl).
  clearbody st5. destruct st5 as (o' & [u|e]); [|exact H]. eapply decent_trans; [exact H|apply finalize_decent].
Qed.

(** *** calls on the attributes *)
Lemma tidy_on_matrix f w x : (forall o, decent o (fst (f o))) -> tidy x -> tidy (fst (on_matrix f w x)).
Proof.
  intros Hf (T1 & T2). unfold on_matrix. destruct (ref w x) as [a|] eqn:Ea; [|split; assumption].
  destruct (nth_error (x_heap x) a) as [o|] eqn:Eo; [|split; assumption].
  specialize (Hf o). destruct (f o) as (o' & r). cbn [fst] in *.
  assert (La := nth_lt _ _ _ Eo). split.
  - intros v b Hb. rewrite get_some in Hb. assert (Hb' : ref v x = Some b) by (destruct v; exact Hb). cbn [x_heap].
    destruct (Nat.eq_dec a b) as [<-|N].
    + assert (v = w) as -> by (apply (T2 v w a); rewrite get_some; assumption).
      exists o'. split; [apply put_at_same, La|]. destruct (T1 w a) as (o1 & E1 & E2 & E3); [rewrite get_some; assumption|].
      rewrite Eo in E1. injection E1 as <-. destruct Hf as (F1 & F2). split; [congruence|]. apply F2, E3.
    + rewrite put_at_other by assumption. apply T1. rewrite get_some. assumption.
  - intros v v' b H1 H2. apply (T2 v v' b); rewrite get_some in *; [destruct v; exact H1|destruct v'; exact H2].
Qed.
Lemma tidy_assign w o x : j_label o = label_of w -> (j_final o = true -> j_X o <> None /\ j_Y o <> None) -> tidy x -> tidy (assign w o x).
Proof.
  intros L F (T1 & T2).
  assert (Hh : x_heap (assign w o x) = x_heap x ++ [o]) by (destruct w; reflexivity).
  assert (Hr : forall v, ref v (assign w o x) = Some (length (x_heap x)) /\ v = w \/ v <> w /\ ref v (assign w o x) = ref v x).
  { intros v. destruct w, v; (left; split; reflexivity) || (right; split; [discriminate|reflexivity]). }
  assert (Hlt : forall v a, ref v x = Some a -> a < length (x_heap x)).
  { intros v a H. rewrite <- get_some in H. destruct (T1 v a H) as (o1 & H1 & _). apply nth_lt in H1. assumption. }
  split.
  - intros v a H. rewrite get_some in H. rewrite Hh. destruct (Hr v) as [(E & ->)|(N & E)]; rewrite E in H.
    + injection H as <-. exists o. rewrite nth_error_app2, Nat.sub_diag by lia. auto.
    + rewrite nth_error_app1 by (apply (Hlt v), H). apply T1. rewrite get_some. assumption.
  - intros v v' a H1 H2. rewrite get_some in H1, H2. destruct (Hr v) as [(E & ->)|(N & E)], (Hr v') as [(E' & ->)|(N' & E')]; rewrite E in H1; rewrite E' in H2.
    + reflexivity.
    + injection H1 as <-. apply Hlt in H2. lia.
    + injection H2 as <-. apply Hlt in H1. lia.
    + apply (T2 v v' a); rewrite get_some; assumption.
Qed.
Lemma tidy_and_then r f : tidy (fst r) -> (forall x, tidy x -> tidy (fst (f x))) -> tidy (fst (and_then r f)).
Proof. intros H1 H2. destruct r as (x & [u|e]); cbn [and_then fst] in *; auto. Qed.
Lemma tidy_finalize x : tidy x -> tidy (fst (xfinalize x)).
Proof.
  intros H. unfold xfinalize. apply tidy_and_then; [apply tidy_on_matrix; [apply finalize_decent|assumption]|].
  intros y Hy. apply tidy_and_then; [apply tidy_on_matrix; [apply finalize_decent|assumption]|].
  intros z Hz. apply tidy_on_matrix; [apply finalize_decent|assumption].
Qed.
Lemma tidy_load_ref s lp w x : tidy x -> tidy (fst (load_ref s lp w (label_of w) x)).
Proof.
  intros H. unfold load_ref. apply tidy_on_matrix; [apply load_decent|]. destruct (ref w x); [assumption|].
  apply tidy_assign; [reflexivity|discriminate|assumption].
Qed.
Lemma tidy_load s lp x : tidy x -> tidy (fst (xload s lp x)).
Proof.
  intros H. unfold xload. apply tidy_and_then; [apply (tidy_load_ref s lp Full x H)|].
  intros y Hy. apply tidy_and_then; [apply (tidy_load_ref s lp Train y Hy)|]. intros z Hz. apply (tidy_load_ref s lp Test z Hz).
Qed.
Lemma tidy_same x y : x_heap y = x_heap x -> (forall w, ref w y = ref w x) -> tidy x -> tidy y.
Proof.
  intros Hh Hr (T1 & T2). split.
  - intros w a H. rewrite get_some, Hr in H. rewrite Hh. apply T1. rewrite get_some. assumption.
  - intros w w' a H1 H2. rewrite get_some, Hr in H1, H2. apply (T2 w w' a); rewrite get_some; assumption.
Qed.
Lemma select_rows_label d rows l m : String.eqb l "" = false -> select_rows d rows l = Ok m -> dm_label m = l /\ dm_final m = false.
Proof.
  intros N H. unfold select_rows in H. destruct rows as [|z rows]; [discriminate|]. rewrite N in H.
  unfold bind in H.
  repeat match type of H with context [match ?t with _ => _ end] => destruct t; [|discriminate] end.
  apply Ok_inj in H. subst m. auto.
Qed.
Lemma of_dm_final d : j_final (of_dm d) = true -> j_X (of_dm d) <> None /\ j_Y (of_dm d) <> None.
Proof. intros _. split; discriminate. Qed.
Lemma tidy_split d q sh x : tidy x -> tidy (fst (xsplit d q sh x)).
Proof.
  intros T. unfold xsplit. match goal with |- context [assign Train _ ?y] => set (x1 := y) end.
  assert (T1 : tidy x1) by (apply (tidy_same x); [reflexivity|intros []; reflexivity|assumption]).
  destruct (select_rows d _ "dataset_train") as [tr|] eqn:Etr; [|exact T1].
  apply select_rows_label in Etr; [|reflexivity]. destruct Etr as (Ltr & Ftr).
  assert (T2 : tidy (assign Train (of_dm tr) x1)) by (apply tidy_assign; [exact Ltr|apply of_dm_final|exact T1]).
  destruct (select_rows d _ "dataset_test") as [te|] eqn:Ete; [|exact T2].
  apply select_rows_label in Ete; [|reflexivity]. apply tidy_assign; [apply Ete|apply of_dm_final|exact T2].
Qed.

(** *** loading one matrix *)
Lemma read_matrix_ok s p n m c : file_is s (p ++ [String.append n ".mtx"]) (CMatrix c m) -> snd (exec s (load_matrix p n)) = Ok (SMat CSR c m).
Proof. intros H. unfold load_matrix. cbn [exec]. rewrite (do_read_file _ _ _ H). reflexivity. Qed.
Lemma read_matrix_inv s p n m : snd (exec s (load_matrix p n)) = Ok m -> complete_matrix s (p ++ [String.append n ".mtx"]).
Proof.
  unfold load_matrix. cbn [exec]. unfold do_read, complete_matrix, file_is. destruct (lookup s _) as [[|c]|]; cbn [exec snd]; try discriminate.
  destruct c; cbn [exec snd]; try discriminate. eauto.
Qed.
Lemma read_labels_ok s f t : file_is s f (CText t) -> snd (exec s (load_labels f)) = Ok (read_labels t).
Proof. intros H. unfold load_labels. cbn [exec]. rewrite (do_read_file _ _ _ H). reflexivity. Qed.
Lemma read_labels_inv s f l : snd (exec s (load_labels f)) = Ok l -> complete_text s f.
Proof.
  unfold load_labels. cbn [exec]. unfold do_read, complete_text, file_is. destruct (lookup s _) as [[|c]|]; cbn [exec snd]; try discriminate.
  destruct c; cbn [exec snd]; try discriminate. eauto.
Qed.
(** what a matrix that was already final, or was not, looks like after load *)
Definition after_load (was_final : bool) (d : dmatrix) : dmatrix :=
  let f := if was_final then CSR else CSC in
  DMat (dm_label d) (SMat f (sm_ncols (dm_X d)) (sm_rows (dm_X d))) (SMat f (sm_ncols (dm_Y d)) (sm_rows (dm_Y d)))
       (dm_row_labels d) (dm_labels_X d) (dm_labels_Y d) true.
Lemma dm_load_ok s folder o d : j_label o = dm_label d -> holds_matrix s folder d -> storable d ->
  dm_load s folder o = (of_dm (after_load (j_final o) d), Ok tt).
Proof.
  intros L (H1 & H2 & H3 & H4 & H5) (S1 & S2 & S3). apply (proj2 (labels_roundtrip _)) in S1, S2, S3.
  unfold dm_load. rewrite L. cbn [read_into].
  rewrite (read_matrix_ok s _ "X" _ _ H1). cbn [read_into]. rewrite (read_matrix_ok s _ "Y" _ _ H2). cbn [read_into].
  rewrite (read_labels_ok _ _ _ H3). cbn [read_into]. rewrite (read_labels_ok _ _ _ H4). cbn [read_into].
  rewrite (read_labels_ok _ _ _ H5). rewrite S1, S2, S3.
  unfold put_X, put_Y, put_rows, put_colsX, put_colsY. cbn [j_label j_X j_Y j_rows j_colsX j_colsY j_final].
  unfold dm_finalize, as_dm, of_dm, after_load. cbn [j_label j_X j_Y j_rows j_colsX j_colsY j_final]. rewrite L.
  destruct (j_final o); reflexivity.
Qed.
Lemma read_into_ok {A} s (p : prog A) put st o : read_into s p put st = (o, Ok tt) -> exists o0 a, st = (o0, Ok tt) /\ snd (exec s p) = Ok a /\ o = put a o0.
Proof.
  destruct st as (o0 & [[]|e]); cbn [read_into]; [|discriminate]. destruct (snd (exec s p)) as [a|e]; [|discriminate].
  intros E. injection E as <-. eauto.
Qed.
Lemma dm_load_complete s folder o : snd (dm_load s folder o) = Ok tt <-> complete_part s (folder ++ [j_label o]).
Proof.
  unfold dm_load. split.
  - set (st1 := read_into s _ put_X _). set (st2 := read_into s _ put_Y _). set (st3 := read_into s _ put_rows _).
    set (st4 := read_into s _ put_colsX _). set (st5 := read_into s _ put_colsY _).
    destruct st5 as (o5 & [[]|e]) eqn:E5; [|discriminate]. intros _.
    apply read_into_ok in E5. destruct E5 as (o4 & a5 & E4 & R5 & _). apply read_into_ok in E4. destruct E4 as (o3 & a4 & E3 & R4 & _).
    apply read_into_ok in E3. destruct E3 as (o2 & a3 & E2 & R3 & _). apply read_into_ok in E2. destruct E2 as (o1 & a2 & E1 & R2 & _).
    apply read_into_ok in E1. destruct E1 as (o0 & a1 & E0 & R1 & _).
    apply read_matrix_inv in R1, R2. apply read_labels_inv in R3, R4, R5. repeat split; assumption.
  - intros ((n1 & r1 & H1) & (n2 & r2 & H2) & (t3 & H3) & (t4 & H4) & (t5 & H5)).
    cbn [read_into].
    rewrite (read_matrix_ok s _ "X" _ _ H1). cbn [read_into]. rewrite (read_matrix_ok s _ "Y" _ _ H2). cbn [read_into].
    rewrite (read_labels_ok _ _ _ H3). cbn [read_into]. rewrite (read_labels_ok _ _ _ H4). cbn [read_into].
    rewrite (read_labels_ok _ _ _ H5).
    unfold put_X, put_Y, put_rows, put_colsX, put_colsY. cbn [j_label j_X j_Y j_rows j_colsX j_colsY j_final].
    unfold dm_finalize, as_dm. cbn [j_label j_X j_Y j_rows j_colsX j_colsY j_final]. destruct (j_final o); reflexivity.
Qed.

(** the object with its matrix [w] given a home *)
Definition housed (w : which) (x : exds) : exds := match ref w x with None => assign w (new_dm (label_of w)) x | Some _ => x end.
Lemma tidy_housed w x : tidy x -> tidy (housed w x).
Proof. intros H. unfold housed. destruct (ref w x); [assumption|]. apply tidy_assign; [reflexivity|discriminate|assumption]. Qed.
Lemma housed_ref w x : tidy x -> exists a o, ref w (housed w x) = Some a /\ nth_error (x_heap (housed w x)) a = Some o /\ j_label o = label_of w /\
  (ref w x = Some a /\ nth_error (x_heap x) a = Some o \/ ref w x = None /\ a = length (x_heap x) /\ o = new_dm (label_of w)).
Proof.
  intros (T1 & _). unfold housed. destruct (ref w x) as [a|] eqn:E.
  - destruct (T1 w a) as (o & H1 & H2 & _); [rewrite get_some; assumption|]. exists a, o. auto 8.
  - exists (length (x_heap x)), (new_dm (label_of w)).
    assert (Hh : x_heap (assign w (new_dm (label_of w)) x) = x_heap x ++ [new_dm (label_of w)]) by (destruct w; reflexivity).
    rewrite Hh, nth_error_app2, Nat.sub_diag by lia. split; [destruct w; reflexivity|]. auto 8.
Qed.
Lemma load_ref_eq s lp w x : tidy x -> exists a o, 
  ref w (housed w x) = Some a /\ nth_error (x_heap (housed w x)) a = Some o /\ j_label o = label_of w /\
  (ref w x = Some a /\ nth_error (x_heap x) a = Some o \/ ref w x = None /\ a = length (x_heap x) /\ o = new_dm (label_of w)) /\
  load_ref s lp w (label_of w) x =
   (let y := housed w x in Exds (put_at (x_heap y) a (fst (dm_load s (lp_path lp) o))) (x_full y) (x_train y) (x_test y) (x_total y) (x_train_rows y) (x_test_rows y),
    snd (dm_load s (lp_path lp) o)).
Proof.
  intros T. destruct (housed_ref w x T) as (a & o & H1 & H2 & H3 & H4). exists a, o. repeat (split; [assumption|]).
  unfold load_ref. fold (housed w x). unfold on_matrix. rewrite H1, H2. destruct (dm_load s (lp_path lp) o). reflexivity.
Qed.
(** a step of load, for any outcome *)
Lemma load_ref_step s lp w x : tidy x -> let y := fst (load_ref s lp w (label_of w) x) in
  exists a o, returns y w a (fst (dm_load s (lp_path lp) o)) /\ j_label o = label_of w /\
    snd (load_ref s lp w (label_of w) x) = snd (dm_load s (lp_path lp) o) /\
    (ref w x = Some a /\ nth_error (x_heap x) a = Some o \/ ref w x = None /\ a = length (x_heap x) /\ o = new_dm (label_of w)) /\
    (forall b, b <> a -> nth_error (x_heap y) b = nth_error (x_heap x) b) /\
    (forall v, v <> w -> ref v y = ref v x) /\ length (x_heap x) <= length (x_heap y) /\
    x_total y = x_total x /\ x_train_rows y = x_train_rows x /\ x_test_rows y = x_test_rows x.
Proof.
  intros T. cbv zeta. destruct (load_ref_eq s lp w x T) as (a & o & H1 & H2 & H3 & H4 & E). rewrite E. cbv zeta. cbn [fst snd].
  exists a, o. assert (La := nth_lt _ _ _ H2). cbn [x_heap x_total x_train_rows x_test_rows].
  split; [|split; [assumption|split; [reflexivity|split; [assumption|]]]].
  - split; [rewrite get_some; destruct w; exact H1|apply put_at_same, La].
  - split; [|split; [|split]].
    + intros b N. rewrite put_at_other by (congruence || assumption). unfold housed.
      destruct H4 as [(R & _)|(R & -> & _)]; rewrite R; [reflexivity|].
      assert (Hh : x_heap (assign w (new_dm (label_of w)) x) = x_heap x ++ [new_dm (label_of w)]) by (destruct w; reflexivity). rewrite Hh.
      destruct (Nat.lt_ge_cases b (length (x_heap x))) as [L|L]; [apply nth_error_app1, L|].
      rewrite !(proj2 (nth_error_None _ _)); [reflexivity|lia|rewrite app_length; cbn [length]; lia].
    + intros v N. unfold housed. destruct (ref w x); destruct v, w; try reflexivity; contradiction N; reflexivity.
    + rewrite put_at_length by assumption. unfold housed. destruct (ref w x); [lia|].
      assert (Hh : x_heap (assign w (new_dm (label_of w)) x) = x_heap x ++ [new_dm (label_of w)]) by (destruct w; reflexivity).
      rewrite Hh, app_length. lia.
    + unfold housed. destruct (ref w x); [auto|]. destruct w; auto.
Qed.
(** load as three steps *)
Lemma xload_ok s lp x y : xload s lp x = (y, Ok tt) ->
  exists x1 x2, load_ref s lp Full (label_of Full) x = (x1, Ok tt) /\ load_ref s lp Train (label_of Train) x1 = (x2, Ok tt) /\ load_ref s lp Test (label_of Test) x2 = (y, Ok tt).
Proof.
  unfold xload. change "dataset" with (label_of Full). change "dataset_train" with (label_of Train). change "dataset_test" with (label_of Test).
  destruct (load_ref s lp Full (label_of Full) x) as (x1 & [[]|e]) eqn:E1; cbn [and_then]; [|discriminate].
  destruct (load_ref s lp Train (label_of Train) x1) as (x2 & [[]|e]) eqn:E2; cbn [and_then]; [|discriminate].
  intros E3. exists x1, x2. auto.
Qed.
Lemma xload_steps s lp x x1 x2 y : load_ref s lp Full (label_of Full) x = (x1, Ok tt) -> load_ref s lp Train (label_of Train) x1 = (x2, Ok tt) ->
  load_ref s lp Test (label_of Test) x2 = (y, Ok tt) -> xload s lp x = (y, Ok tt).
Proof.
  intros E1 E2 E3. unfold xload. change "dataset" with (label_of Full). change "dataset_train" with (label_of Train). change "dataset_test" with (label_of Test).
  rewrite E1. cbn [and_then]. rewrite E2. exact E3.
Qed.

(** *** finalizing *)
Lemma dm_finalize_of d : dm_finalize (of_dm d) = (of_dm (finalize d), Ok tt).
Proof.
  unfold dm_finalize. cbn [of_dm j_final]. destruct (dm_final d) eqn:E.
  - unfold finalize. rewrite E. reflexivity.
  - unfold as_dm, of_dm. cbn [j_X j_Y j_label j_rows j_colsX j_colsY j_final]. destruct d; reflexivity.
Qed.
Lemma on_matrix_step f w x a o : ref w x = Some a -> nth_error (x_heap x) a = Some o -> exists y,
  on_matrix f w x = (y, snd (f o)) /\ nth_error (x_heap y) a = Some (fst (f o)) /\
  (forall b, b <> a -> nth_error (x_heap y) b = nth_error (x_heap x) b) /\ (forall v, ref v y = ref v x) /\ length (x_heap y) = length (x_heap x) /\
  x_total y = x_total x /\ x_train_rows y = x_train_rows x /\ x_test_rows y = x_test_rows x.
Proof.
  intros H1 H2. unfold on_matrix. rewrite H1, H2. destruct (f o) as (o' & r). eexists. split; [reflexivity|]. cbn [x_heap fst].
  assert (La := nth_lt _ _ _ H2).
  split; [apply put_at_same, La|]. split; [intros b N; apply put_at_other; [congruence|exact La]|].
  split; [intros []; reflexivity|]. split; [apply put_at_length, La|]. auto.
Qed.
Lemma xfinalize_ok x f tr te af atr ate :
  ref Full x = Some af -> ref Train x = Some atr -> ref Test x = Some ate -> af <> atr -> af <> ate -> atr <> ate ->
  nth_error (x_heap x) af = Some (of_dm f) -> nth_error (x_heap x) atr = Some (of_dm tr) -> nth_error (x_heap x) ate = Some (of_dm te) ->
  exists y, xfinalize x = (y, Ok tt) /\ (forall v, ref v y = ref v x) /\
    nth_error (x_heap y) af = Some (of_dm (finalize f)) /\ nth_error (x_heap y) atr = Some (of_dm (finalize tr)) /\ nth_error (x_heap y) ate = Some (of_dm (finalize te)) /\
    (forall b, b <> af -> b <> atr -> b <> ate -> nth_error (x_heap y) b = nth_error (x_heap x) b) /\
    x_total y = x_total x /\ x_train_rows y = x_train_rows x /\ x_test_rows y = x_test_rows x.
Proof.
  intros R1 R2 R3 N1 N2 N3 H1 H2 H3. unfold xfinalize.
  destruct (on_matrix_step dm_finalize Full x af _ R1 H1) as (y1 & E1 & P1 & O1 & V1 & _ & A1 & B1 & C1). rewrite dm_finalize_of in E1, P1. cbn [fst snd] in *.
  rewrite E1. cbn [and_then].
  destruct (on_matrix_step dm_finalize Train y1 atr (of_dm tr)) as (y2 & E2 & P2 & O2 & V2 & _ & A2 & B2 & C2); [rewrite V1; assumption|rewrite O1 by congruence; assumption|].
  rewrite dm_finalize_of in E2, P2. cbn [fst snd] in *. rewrite E2. cbn [and_then].
  destruct (on_matrix_step dm_finalize Test y2 ate (of_dm te)) as (y3 & E3 & P3 & O3 & V3 & _ & A3 & B3 & C3); [rewrite V2, V1; assumption|rewrite O2, O1 by congruence; assumption|].
  rewrite dm_finalize_of in E3, P3. cbn [fst snd] in *. exists y3. split; [assumption|].
  split; [intros v; rewrite V3, V2, V1; reflexivity|].
  split; [rewrite O3, O2 by congruence; assumption|]. split; [rewrite O3 by congruence; assumption|]. split; [assumption|].
  split; [intros b M1 M2 M3; rewrite O3, O2, O1 by assumption; reflexivity|]. repeat split; congruence.
Qed.

(** *** saving *)
Lemma save_ref_eq lp w x a d : ref w x = Some a -> nth_error (x_heap x) a = Some (of_dm d) -> dm_final d = true -> save_ref lp w x = save_dm d (lp_path lp).
Proof.
  intros H1 H2 F. unfold save_ref. rewrite H1, H2. unfold dm_save, as_dm. cbn [of_dm j_final j_X j_Y j_label j_rows j_colsX j_colsY]. rewrite F. cbn [negb].
  destruct d as [l X Y rl cx cy fin]. cbn in F. subst fin. reflexivity.
Qed.
Lemma xsave_eq lp x f tr te af atr ate :
  ref Full x = Some af -> ref Train x = Some atr -> ref Test x = Some ate ->
  nth_error (x_heap x) af = Some (of_dm f) -> nth_error (x_heap x) atr = Some (of_dm tr) -> nth_error (x_heap x) ate = Some (of_dm te) ->
  dm_final f = true -> dm_final tr = true -> dm_final te = true ->
  xsave lp x = save_built lp (WithSplit f tr te).
Proof.
  intros R1 R2 R3 H1 H2 H3 F1 F2 F3. unfold xsave.
  rewrite (save_ref_eq lp Full x af f), (save_ref_eq lp Train x atr tr), (save_ref_eq lp Test x ate te) by assumption. reflexivity.
Qed.

(** *** splitting *)
Definition entry (x : exds) (w : which) (d : dmatrix) : Prop := exists a, ref w x = Some a /\ nth_error (x_heap x) a = Some (of_dm d).
Lemma xsplit_ok d q sh x sp : x_total x = sm_nrows (dm_X d) -> perform_split d q sh = Ok sp ->
  xsplit d q sh x = (Exds (x_heap x ++ [of_dm (s_train sp); of_dm (s_test sp)]) (x_full x) (Some (length (x_heap x))) (Some (S (length (x_heap x))))
    (x_total x) (Some (s_train_rows sp)) (Some (s_test_rows sp)), Ok tt).
Proof.
  intros T. unfold perform_split, xsplit. rewrite T. cbv zeta. unfold bind.
  destruct (select_rows d _ "dataset_train") as [tr|e]; [|discriminate].
  destruct (select_rows d _ "dataset_test") as [te|e]; [|discriminate].
  intros E. apply Ok_inj in E. subst sp. cbn [s_train s_test s_train_rows s_test_rows]. unfold assign. cbn [x_heap x_full x_train x_test x_total x_train_rows x_test_rows].
  rewrite app_length. cbn [length]. rewrite Nat.add_1_r, <- app_assoc. reflexivity.
Qed.
Lemma xsplit_err d q sh x e : x_total x = sm_nrows (dm_X d) -> perform_split d q sh = Err e ->
  exists y, xsplit d q sh x = (y, Err e) /\ x_full y = x_full x /\ x_test y = x_test x /\ x_total y = x_total x /\
    (forall b, b < length (x_heap x) -> nth_error (x_heap y) b = nth_error (x_heap x) b).
Proof.
  intros T. unfold perform_split, xsplit. rewrite T. cbv zeta. unfold bind.
  destruct (select_rows d _ "dataset_train") as [tr|e1].
  - destruct (select_rows d _ "dataset_test") as [te|e2]; [discriminate|]. intros E. injection E as ->. eexists. split; [reflexivity|].
    cbn [assign x_full x_test x_total x_heap]. repeat (split; [reflexivity || (symmetry; assumption)|]).
    intros b Hb. apply nth_error_app1, Hb.
  - intros E. injection E as ->. eexists. split; [reflexivity|]. cbn [x_full x_test x_total x_heap]. repeat (split; [reflexivity || (symmetry; assumption)|]). auto.
Qed.
