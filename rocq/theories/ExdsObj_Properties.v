(** C78.  An experimental dataset with a training and a testing part, as an object in a program's hands: what get_datasetmatrix returns
    after build, load, finalize and save, in any order, and also when they raise half-way. *)
From Coq Require Import String QArith.
From Verif Require Import Base Matrix_Model Text_Model Text_Proofs FS_Model FS_Proofs Split_Model Storage_Model Storage_Spec Storage_Proofs
  Exds_Proofs Exds_Success ExdsObj_Model ExdsObj_Proofs.
Open Scope nat_scope.
Open Scope string_scope.
Open Scope list_scope.

(** 'full', 'train' and 'test' are the only names; on a new object all three are None *)
Theorem C78_only_three_names : forall x name,
  (exists a, get_datasetmatrix x name = Ok a) <-> name = "full" \/ name = "train" \/ name = "test".
Proof.
  intros x name. unfold get_datasetmatrix.
  destruct (String.eqb_spec name "full") as [->|N1]; [split; eauto|].
  destruct (String.eqb_spec name "train") as [->|N2]; [split; eauto|].
  destruct (String.eqb_spec name "test") as [->|N3]; [split; eauto|].
  split; [intros (a & H); discriminate|tauto].
Qed.
Theorem C78_other_names_refused : forall x name, name <> "full" -> name <> "train" -> name <> "test" -> get_datasetmatrix x name = Err ValueError.
Proof.
  intros x name N1 N2 N3. unfold get_datasetmatrix. apply String.eqb_neq in N1, N2, N3. rewrite N1, N2, N3. reflexivity.
Qed.
Theorem C78_new : forall h w, get_datasetmatrix (new_exds h) (arg w) = Ok None.
Proof. intros h []; reflexivity. Qed.

(** *** histories *)
(** the dataset source labels its matrix as it was asked to *)
Definition source_ok (o : xop) : Prop := match o with XBuild _ _ (Ok d) _ _ => dm_label d = "dataset" | _ => True end.
Lemma tidy_new h : tidy (new_exds h).
Proof. split; [intros w a H|intros w w' a H]; rewrite C78_new in H; discriminate. Qed.
Lemma tidy_fas lp auto s x : tidy x -> tidy (snd (fst (xfinalize_and_save lp auto s x))).
Proof.
  intros T. apply tidy_finalize in T. unfold xfinalize_and_save. destruct (xfinalize x) as (y & [u|e]); cbn [fst snd] in *; [|assumption].
  destruct (exec s _). assumption.
Qed.
Lemma tidy_build lp do_save auto source q sh s x : (forall d, source = Ok d -> dm_label d = "dataset") -> tidy x -> tidy (snd (fst (xbuild lp do_save auto source q sh s x))).
Proof.
  intros L T. unfold xbuild. destruct source as [d|e]; [|exact T]. cbv zeta. match goal with |- context [xsplit d q sh ?z] => set (x2 := z) end.
  assert (T1 : tidy (assign Full (of_dm d) x)) by (apply tidy_assign; [apply L; reflexivity|apply of_dm_final|assumption]).
  assert (T2 : tidy x2) by (apply (tidy_same (assign Full (of_dm d) x)); [reflexivity|intros []; reflexivity|assumption]).
  apply (tidy_split d q sh) in T2. destruct (xsplit d q sh x2) as (y & [u|e]); cbn [fst snd] in *; [|assumption].
  destruct do_save; [apply tidy_fas; assumption|assumption].
Qed.
Theorem C78_histories : forall lp ops s h, Forall source_ok ops -> tidy (snd (xrun lp ops s (new_exds h))).
Proof.
  intros lp ops s h H. unfold xrun. generalize (tidy_new h). generalize (new_exds h). revert s.
  induction H as [|o ops Ho H IH]; intros s x T; [exact T|]. cbn [fold_left].
  assert (T' : tidy (snd (xstep lp (s, x) o))).
  { unfold xstep. destruct o as [do_save auto source q sh| | | |auto|t]; cbn [snd].
    - apply tidy_build; [|assumption]. intros d ->. exact Ho.
    - apply tidy_load, T.
    - apply tidy_finalize, T.
    - exact T.
    - apply tidy_fas, T.
    - exact T. }
  destruct (xstep lp (s, x) o) as (s' & x'). apply IH, T'.
Qed.

(** *** build *)
(** [build] of C42 on the three matrices does to the disk exactly what build() of the object does *)
Theorem C78_build : forall lp do_save auto_lock d q shuffled sp s x, perform_split d q shuffled = Ok sp ->
  exists y, xbuild lp do_save auto_lock (Ok d) q shuffled s x =
    (fst (exec s (build lp do_save auto_lock (Ok (WithSplit d (s_train sp) (s_test sp))))), y,
     snd (exec s (build lp do_save auto_lock (Ok (WithSplit d (s_train sp) (s_test sp)))))) /\
  (forall w, exists a, length (x_heap x) <= a /\
     returns y w a (of_dm (let m := pick w d (s_train sp) (s_test sp) in if do_save then finalize m else m))) /\
  (forall w w' a, get_datasetmatrix y (arg w) = Ok (Some a) -> get_datasetmatrix y (arg w') = Ok (Some a) -> w = w') /\
  x_total y = sm_nrows (dm_X d) /\ x_train_rows y = Some (s_train_rows sp) /\ x_test_rows y = Some (s_test_rows sp) /\
  (forall a, a < length (x_heap x) -> nth_error (x_heap y) a = nth_error (x_heap x) a).
Proof.
  intros lp do_save auto d q sh sp s x Hs. unfold xbuild. cbv zeta.
  match goal with |- context [xsplit d q sh ?z] => set (x2 := z) end.
  rewrite (xsplit_ok d q sh x2 sp eq_refl Hs). cbn beta iota.
  match goal with |- context [if do_save then xfinalize_and_save lp auto s ?z else _] => set (y := z) end.
  set (L := length (x_heap x)).
  assert (Hh : x_heap y = x_heap x ++ [of_dm d; of_dm (s_train sp); of_dm (s_test sp)]).
  { unfold y. cbn [x_heap]. unfold x2. cbn [x_heap assign]. rewrite <- app_assoc. reflexivity. }
  assert (L2 : length (x_heap x2) = S L) by (unfold x2; cbn [x_heap assign]; rewrite app_length; cbn [length]; fold L; lia).
  assert (R1 : ref Full y = Some L) by reflexivity.
  assert (R2 : ref Train y = Some (S L)) by (unfold y; cbn [ref x_train]; rewrite L2; reflexivity).
  assert (R3 : ref Test y = Some (S (S L))) by (unfold y; cbn [ref x_test]; rewrite L2; reflexivity).
  assert (H1 : nth_error (x_heap y) L = Some (of_dm d)) by (rewrite Hh, nth_error_app2, Nat.sub_diag by (fold L; lia); reflexivity).
  assert (H2 : nth_error (x_heap y) (S L) = Some (of_dm (s_train sp))).
  { rewrite Hh, nth_error_app2 by (fold L; lia). fold L. replace (S L - L) with 1 by lia. reflexivity. }
  assert (H3 : nth_error (x_heap y) (S (S L)) = Some (of_dm (s_test sp))).
  { rewrite Hh, nth_error_app2 by (fold L; lia). fold L. replace (S (S L) - L) with 2 by lia. reflexivity. }
  assert (HO : forall a, a < L -> nth_error (x_heap y) a = nth_error (x_heap x) a) by (intros a Ha; rewrite Hh; apply nth_error_app1, Ha).
  assert (S1 : x_total y = sm_nrows (dm_X d)) by reflexivity.
  assert (S2 : x_train_rows y = Some (s_train_rows sp)) by reflexivity.
  assert (S3 : x_test_rows y = Some (s_test_rows sp)) by reflexivity.
  clearbody y. clear Hh L2 x2.
  assert (D : forall z, (forall v, ref v z = ref v y) -> forall w w' a, get_datasetmatrix z (arg w) = Ok (Some a) -> get_datasetmatrix z (arg w') = Ok (Some a) -> w = w').
  { intros z V w w' a E1 E2. rewrite get_some, V in E1, E2.
    destruct w, w'; try reflexivity; rewrite ?R1, ?R2, ?R3 in *; exfalso; injection E1; injection E2; lia. }
  destruct do_save.
  - destruct (xfinalize_ok y d (s_train sp) (s_test sp) L (S L) (S (S L)) R1 R2 R3) as (z & E & V & P1 & P2 & P3 & PO & A1 & A2 & A3); [lia|lia|lia|assumption|assumption|assumption|].
    exists z. unfold xfinalize_and_save. rewrite E. unfold build. cbn [lift pbind]. unfold finalize_and_save. cbn [finalize_built].
    rewrite (xsave_eq lp z (finalize d) (finalize (s_train sp)) (finalize (s_test sp)) L (S L) (S (S L))) by (rewrite ?V; first [assumption|apply final_finalize]).
    destruct (exec s _) as (t & r). split; [reflexivity|]. split; [|split; [apply D, V|split; [congruence|split; [congruence|split; [congruence|]]]]].
    + intros []; cbv zeta; cbn [pick]; [exists L|exists (S L)|exists (S (S L))]; (split; [lia|]); (split; [rewrite get_some, V|]); assumption.
    + intros a Ha. rewrite PO by lia. apply HO, Ha.
  - exists y. split; [reflexivity|]. split; [|split; [apply D; reflexivity|auto]].
    intros []; cbv zeta; cbn [pick]; [exists L|exists (S L)|exists (S (S L))]; (split; [lia|]); (split; [rewrite get_some|]); assumption.
Qed.
(** a build that returns had a source that gave a matrix and a split that worked; with saving, the folder was not locked, all three are stored
    and, if so asked, locked *)
Theorem C78_build_returned : forall lp do_save auto_lock source q shuffled s x t y,
  (forall d, source = Ok d -> dm_label d = "dataset") ->
  xbuild lp do_save auto_lock source q shuffled s x = (t, y, Ok tt) ->
  exists d sp, source = Ok d /\ perform_split d q shuffled = Ok sp /\
    (do_save = false -> t = s) /\
    (do_save = true -> ~ locked s (lp_path lp) /\ (auto_lock = true -> locked t (lp_path lp)) /\
       forall w, holds_matrix t (lp_path lp) (pick w d (s_train sp) (s_test sp))).
Proof.
  intros lp do_save auto source q sh s x t y L E. destruct source as [d|e]; [|discriminate].
  destruct (perform_split d q sh) as [sp|e] eqn:Es.
  - exists d, sp. split; [reflexivity|]. split; [exact Es|]. destruct (C78_build lp do_save auto d q sh sp s x Es) as (z & Ez & _).
    rewrite E in Ez. assert (Et : t = fst (exec s (build lp do_save auto (Ok (WithSplit d (s_train sp) (s_test sp)))))) by congruence.
    assert (Er : snd (exec s (build lp do_save auto (Ok (WithSplit d (s_train sp) (s_test sp))))) = Ok tt) by congruence.
    split.
    + intros ->. rewrite Et. reflexivity.
    + intros ->.
      assert (P : forall b, Ok (WithSplit d (s_train sp) (s_test sp)) = Ok b -> proper_labels b).
      { intros b Eb. apply Ok_inj in Eb. subst b. unfold proper_labels. cbn [map parts has_split part_labels]. rewrite (L d eq_refl).
        unfold perform_split, bind in Es. destruct (select_rows d _ "dataset_train") as [tr|] eqn:E1; [|discriminate].
        destruct (select_rows d _ "dataset_test") as [te|] eqn:E2; [|discriminate]. apply Ok_inj in Es. subst sp. cbn [s_train s_test].
        apply select_rows_label in E1; [|reflexivity]. apply select_rows_label in E2; [|reflexivity].
        destruct E1 as (-> & _). destruct E2 as (-> & _). reflexivity. }
      destruct (build_spec lp true auto (Ok (WithSplit d (s_train sp) (s_test sp))) s P) as (_ & HQ).
      destruct (HQ Er eq_refl) as (H1 & b & Eb & H2 & H3). apply Ok_inj in Eb. subst b. rewrite <- Et in *. split; [assumption|]. split; [assumption|].
      intros w. apply H2. cbn [parts]. destruct w; cbn [pick In]; auto.
  - exfalso. unfold xbuild in E. cbv zeta in E. match type of E with context [xsplit d q sh ?z] => set (x2 := z) in E end.
    destruct (xsplit_err d q sh x2 e eq_refl Es) as (z & Ez & _). rewrite Ez in E. discriminate.
Qed.
(** a source that raises changes nothing *)
Theorem C78_source_raises : forall lp do_save auto_lock e q shuffled s x, xbuild lp do_save auto_lock (Err e) q shuffled s x = (s, x, Err e).
Proof. reflexivity. Qed.
(** but a split that raises leaves the new full matrix next to the old testing matrix (and nothing is saved) *)
Theorem C78_failed_split_leaves_old_parts : forall lp do_save auto_lock d q shuffled e s x, perform_split d q shuffled = Err e ->
  exists y, xbuild lp do_save auto_lock (Ok d) q shuffled s x = (s, y, Err e) /\
    returns y Full (length (x_heap x)) (of_dm d) /\
    get_datasetmatrix y "test" = get_datasetmatrix x "test" /\
    (forall a, a < length (x_heap x) -> nth_error (x_heap y) a = nth_error (x_heap x) a) /\
    x_total y = sm_nrows (dm_X d).
Proof.
  intros lp do_save auto d q sh e s x Es. unfold xbuild. cbv zeta.
  match goal with |- context [xsplit d q sh ?z] => set (x2 := z) end.
  destruct (xsplit_err d q sh x2 e eq_refl Es) as (y & -> & H1 & H2 & H3 & H4). exists y. split; [reflexivity|].
  assert (Hh : x_heap x2 = x_heap x ++ [of_dm d]) by reflexivity. rewrite Hh, app_length in H4. cbn [length] in H4.
  split; [split|split; [|split]].
  - apply get_some. cbn [ref]. rewrite H1. reflexivity.
  - rewrite H4 by lia. rewrite nth_error_app2, Nat.sub_diag by lia. reflexivity.
  - change (Ok (x_test y) = Ok (x_test x)). rewrite H2. reflexivity.
  - intros a Ha. rewrite H4 by lia. apply nth_error_app1, Ha.
  - exact H3.
Qed.

(** *** load *)
(** was the matrix [w] of the object final? *)
Definition was_final (x : exds) (w : which) (f : bool) : Prop :=
  match get_datasetmatrix x (arg w) with Ok (Some a) => exists o, nth_error (x_heap x) a = Some o /\ j_final o = f | _ => f = false end.
Lemma load_ref_ok s lp w x d : tidy x -> dm_label d = label_of w -> holds_matrix s (lp_path lp) d -> storable d ->
  exists y a f, load_ref s lp w (label_of w) x = (y, Ok tt) /\ was_final x w f /\ returns y w a (of_dm (after_load f d)) /\
    (forall b, ref w x = Some b -> b = a) /\ (ref w x = None -> length (x_heap x) <= a) /\
    (forall b, b <> a -> nth_error (x_heap y) b = nth_error (x_heap x) b) /\ (forall v, v <> w -> ref v y = ref v x) /\ length (x_heap x) <= length (x_heap y) /\
    x_total y = x_total x /\ x_train_rows y = x_train_rows x /\ x_test_rows y = x_test_rows x.
Proof.
  intros T L H S. destruct (load_ref_step s lp w x T) as (a & o & R & Lo & E & F & O & V & G & S1 & S2 & S3).
  rewrite (dm_load_ok s (lp_path lp) o d) in R, E by (congruence || assumption). cbn [fst snd] in R, E.
  destruct (load_ref s lp w (label_of w) x) as (y & r). cbn [fst snd] in *. subst r.
  exists y, a, (j_final o). split; [reflexivity|]. split; [|split; [exact R|]].
  - unfold was_final. rewrite get_ref. destruct F as [(F1 & F2)|(F1 & _ & ->)]; rewrite F1; [eauto|reflexivity].
  - split; [|split].
    + intros b Hb. destruct F as [(F1 & _)|(F1 & _)]; congruence.
    + intros Hn. destruct F as [(F1 & _)|(_ & -> & _)]; [congruence|lia].
    + repeat (split; [assumption|]). assumption.
Qed.
(** with the files of three matrices on the disk, load returns, fills the matrices the object already has and makes those it has not; data and labels
    are those of the files; rows lists and total are not restored; no other object changes *)
Theorem C78_load : forall lp s x (D : which -> dmatrix), tidy x ->
  (forall w, dm_label (D w) = label_of w /\ holds_matrix s (lp_path lp) (D w) /\ storable (D w)) ->
  exists y, xload s lp x = (y, Ok tt) /\
    (forall w, exists a f, was_final x w f /\ returns y w a (of_dm (after_load f (D w))) /\
       (forall b, get_datasetmatrix x (arg w) = Ok (Some b) -> b = a)) /\
    (forall b, b < length (x_heap x) -> (forall w, get_datasetmatrix x (arg w) <> Ok (Some b)) -> nth_error (x_heap y) b = nth_error (x_heap x) b) /\
    x_total y = x_total x /\ x_train_rows y = x_train_rows x /\ x_test_rows y = x_test_rows x.
Proof.
  intros lp s x D T H.
  destruct (load_ref_ok s lp Full x (D Full) T) as (x1 & a1 & f1 & E1 & W1 & R1 & K1 & N1 & O1 & V1 & G1 & A1 & B1 & C1); [apply H|apply H|apply H|].
  assert (T1 : tidy x1) by (pose proof (tidy_load_ref s lp Full x T) as Q; rewrite E1 in Q; exact Q).
  destruct (load_ref_ok s lp Train x1 (D Train) T1) as (x2 & a2 & f2 & E2 & W2 & R2 & K2 & N2 & O2 & V2 & G2 & A2 & B2 & C2); [apply H|apply H|apply H|].
  assert (T2 : tidy x2) by (pose proof (tidy_load_ref s lp Train x1 T1) as Q; rewrite E2 in Q; exact Q).
  destruct (load_ref_ok s lp Test x2 (D Test) T2) as (y & a3 & f3 & E3 & W3 & R3 & K3 & N3 & O3 & V3 & G3 & A3 & B3 & C3); [apply H|apply H|apply H|].
  assert (T3 : tidy y) by (pose proof (tidy_load_ref s lp Test x2 T2) as Q; rewrite E3 in Q; exact Q).
  exists y. split; [apply (xload_steps s lp x x1 x2 y); assumption|].
  assert (RF : ref Full y = Some a1) by (rewrite V3, V2 by discriminate; apply get_some, R1).
  assert (RT : ref Train y = Some a2) by (rewrite V3 by discriminate; apply get_some, R2).
  assert (RS : ref Test y = Some a3) by (apply get_some, R3).
  assert (D12 : a1 <> a2) by (intros ->; destruct T3 as (_ & T3); assert (Full = Train) by (apply (T3 Full Train a2); rewrite get_some; assumption); discriminate).
  assert (D13 : a1 <> a3) by (intros ->; destruct T3 as (_ & T3); assert (Full = Test) by (apply (T3 Full Test a3); rewrite get_some; assumption); discriminate).
  assert (D23 : a2 <> a3) by (intros ->; destruct T3 as (_ & T3); assert (Train = Test) by (apply (T3 Train Test a3); rewrite get_some; assumption); discriminate).
  split; [|split].
  - assert (X2 : ref Train x1 = ref Train x) by (apply V1; discriminate).
    assert (X3 : ref Test x2 = ref Test x) by (rewrite V2, V1 by discriminate; reflexivity).
    intros w. destruct w; cbn [pick].
    + exists a1, f1. split; [exact W1|]. split; [split; [apply get_some, RF|]|].
      * rewrite O3, O2 by assumption. apply R1.
      * intros b Hb. apply K1. apply get_some, Hb.
    + exists a2, f2. split; [|split; [split; [apply get_some, RT|]|]].
      * unfold was_final in *. rewrite get_ref in *. rewrite X2 in W2. destruct (ref Train x) as [b|] eqn:Eb; [|exact W2].
        rewrite <- (O1 b); [exact W2|]. intros ->. destruct T3 as (_ & T3).
        assert (a1 = a2) by (apply K2; rewrite X2; reflexivity). contradiction.
      * rewrite O3 by assumption. apply R2.
      * intros b Hb. apply K2. rewrite X2. apply get_some, Hb.
    + exists a3, f3. split; [|split; [exact R3|]].
      * unfold was_final in *. rewrite get_ref in *. rewrite X3 in W3. destruct (ref Test x) as [b|] eqn:Eb; [|exact W3].
        assert (b = a3) by (apply K3; rewrite X3; reflexivity). subst b. rewrite <- (O1 a3), <- (O2 a3) by congruence. exact W3.
      * intros b Hb. apply K3. rewrite X3. apply get_some, Hb.
  - intros b Hb Hn.
    assert (M : forall w c, (ref w x = None -> length (x_heap x) <= c) -> (forall e, ref w x = Some e -> e = c) -> b <> c).
    { intros w c P1 P2 ->. destruct (ref w x) as [e|] eqn:Ee; [|specialize (P1 eq_refl); lia].
      apply (Hn w). rewrite get_some, Ee. f_equal. apply P2. reflexivity. }
    rewrite O3, O2, O1; [reflexivity| | |].
    + apply (M Full); assumption.
    + apply (M Train); rewrite <- (V1 Train) by discriminate; [intros Q; specialize (N2 Q); lia|assumption].
    + apply (M Test); rewrite <- (V1 Test), <- (V2 Test) by discriminate; [intros Q; specialize (N3 Q); lia|assumption].
  - repeat split; congruence.
Qed.
(** load returns exactly when all fifteen files are there, written to the end *)
Theorem C78_load_returns_iff : forall lp s x, tidy x -> (snd (xload s lp x) = Ok tt <-> complete s (lp_path lp) true).
Proof.
  intros lp s x T.
  assert (Step : forall w z, tidy z -> (snd (load_ref s lp w (label_of w) z) = Ok tt <-> complete_part s (lp_path lp ++ [label_of w]))).
  { intros w z Tz. destruct (load_ref_step s lp w z Tz) as (a & o & _ & Lo & E & _). rewrite E, dm_load_complete, Lo. reflexivity. }
  split.
  - intros E. destruct (xload s lp x) as (y & r) eqn:Ex. cbn [snd] in E. subst r. apply xload_ok in Ex. destruct Ex as (x1 & x2 & E1 & E2 & E3).
    assert (T1 : tidy x1) by (pose proof (tidy_load_ref s lp Full x T) as Q; rewrite E1 in Q; exact Q).
    assert (T2 : tidy x2) by (pose proof (tidy_load_ref s lp Train x1 T1) as Q; rewrite E2 in Q; exact Q).
    intros l [<-|[<-|[<-|[]]]].
    + apply (Step Full x T). rewrite E1. reflexivity.
    + apply (Step Train x1 T1). rewrite E2. reflexivity.
    + apply (Step Test x2 T2). rewrite E3. reflexivity.
  - intros H. unfold complete in H. cbn [part_labels In] in H.
    assert (H1 : snd (load_ref s lp Full (label_of Full) x) = Ok tt) by (apply Step; [assumption|]; apply H; auto).
    destruct (load_ref s lp Full (label_of Full) x) as (x1 & r1) eqn:E1. cbn [snd] in H1. subst r1.
    assert (T1 : tidy x1) by (pose proof (tidy_load_ref s lp Full x T) as Q; rewrite E1 in Q; exact Q).
    assert (H2 : snd (load_ref s lp Train (label_of Train) x1) = Ok tt) by (apply Step; [assumption|]; apply H; auto).
    destruct (load_ref s lp Train (label_of Train) x1) as (x2 & r2) eqn:E2. cbn [snd] in H2. subst r2.
    assert (T2 : tidy x2) by (pose proof (tidy_load_ref s lp Train x1 T1) as Q; rewrite E2 in Q; exact Q).
    assert (H3 : snd (load_ref s lp Test (label_of Test) x2) = Ok tt) by (apply Step; [assumption|]; apply H; auto).
    destruct (load_ref s lp Test (label_of Test) x2) as (y & r3) eqn:E3. cbn [snd] in H3. subst r3.
    rewrite (xload_steps s lp x x1 x2 y E1 E2 E3). reflexivity.
Qed.
(** whatever happens during a load, the object keeps the matrices it has: they are filled, not replaced *)
Theorem C78_load_in_place : forall lp s x w a, tidy x -> get_datasetmatrix x (arg w) = Ok (Some a) -> get_datasetmatrix (fst (xload s lp x)) (arg w) = Ok (Some a).
Proof.
  intros lp s x w a T H. rewrite get_some in *.
  assert (Step : forall v z, tidy z -> ref w z = Some a -> ref w (fst (load_ref s lp v (label_of v) z)) = Some a).
  { intros v z Tz Hz. destruct (load_ref_step s lp v z Tz) as (b & o & (R & _) & _ & _ & F & _ & V & _).
    destruct w, v; try (rewrite V by discriminate; assumption); apply get_some in R; rewrite R; destruct F as [(F & _)|(F & _)]; congruence. }
  unfold xload. change "dataset" with (label_of Full). change "dataset_train" with (label_of Train). change "dataset_test" with (label_of Test).
  pose proof (tidy_load_ref s lp Full x T) as T1. pose proof (Step Full x T H) as P1.
  destruct (load_ref s lp Full (label_of Full) x) as (x1 & [u|e]); cbn [and_then fst] in *; [|assumption].
  pose proof (tidy_load_ref s lp Train x1 T1) as T2. pose proof (Step Train x1 T1 P1) as P2.
  destruct (load_ref s lp Train (label_of Train) x1) as (x2 & [u2|e2]); cbn [and_then fst] in *; [|assumption].
  apply (Step Test x2 T2 P2).
Qed.
(** but a load that stops half-way has already put the matrices it read into them: with the row labels missing on the disk, the object is left with
    the X and Y of the files and its own old labels *)
Theorem C78_failed_load_mixes : forall lp s x a o nx rx ny ry, tidy x -> returns x Full a o ->
  let mp := lp_path lp ++ ["dataset"] in
  file_is s (mp ++ ["X.mtx"]) (CMatrix nx rx) -> file_is s (mp ++ ["Y.mtx"]) (CMatrix ny ry) -> lookup s (mp ++ ["row_labels.txt"]) = None ->
  exists y, xload s lp x = (y, Err OSErr) /\
    returns y Full a (DMObj (j_label o) (Some (SMat CSR nx rx)) (Some (SMat CSR ny ry)) (j_rows o) (j_colsX o) (j_colsY o) (j_final o)) /\
    (forall w, w <> Full -> get_datasetmatrix y (arg w) = get_datasetmatrix x (arg w)).
Proof.
  intros lp s x a o nx rx ny ry T (R1 & R2) mp H1 H2 H3. unfold mp in *. clear mp. rewrite get_some in R1.
  assert (Lo : j_label o = "dataset").
  { destruct T as (T & _). destruct (T Full a) as (o1 & E1 & E2 & _); [rewrite get_some; assumption|]. rewrite R2 in E1. injection E1 as <-. exact E2. }
  assert (E : dm_load s (lp_path lp) o = (put_Y (SMat CSR ny ry) (put_X (SMat CSR nx rx) o), Err OSErr)).
  { unfold dm_load. rewrite Lo. cbn [read_into]. rewrite (read_matrix_ok s _ "X" _ _ H1). cbn [read_into]. rewrite (read_matrix_ok s _ "Y" _ _ H2). cbn [read_into].
    assert (Rl : snd (exec s (load_labels ((lp_path lp ++ ["dataset"]) ++ ["row_labels.txt"]))) = Err OSErr) by (unfold load_labels; cbn [exec]; unfold do_read; rewrite H3; reflexivity).
    rewrite Rl. reflexivity. }
  destruct (load_ref_step s lp Full x T) as (b & o1 & R & _ & Er & F & O & V & _).
  destruct F as [(F1 & F2)|(F1 & _)]; [|congruence]. assert (b = a) by congruence. subst b. assert (o1 = o) by congruence. subst o1.
  rewrite E in R, Er. cbn [fst snd] in *. unfold xload. change "dataset" with (label_of Full) at 1.
  destruct (load_ref s lp Full (label_of Full) x) as (y & r). cbn [fst snd] in *. subst r. exists y. split; [reflexivity|]. split; [exact R|].
  intros w N. rewrite !get_ref, V by assumption. reflexivity.
Qed.

(** *** save *)
Lemma save_ref_inv lp w x s t : exec s (save_ref lp w x) = (t, Ok tt) -> exists a d, ref w x = Some a /\ nth_error (x_heap x) a = Some (of_dm d) /\ dm_final d = true.
Proof.
  unfold save_ref. destruct (ref w x) as [a|]; [|discriminate]. destruct (nth_error (x_heap x) a) as [o|] eqn:Eo; [|discriminate].
  unfold dm_save. destruct (j_final o) eqn:F; cbn [negb]; [|discriminate]. destruct (as_dm o) as [d|] eqn:Ed; [|discriminate]. intros _.
  exists a, d. split; [reflexivity|]. unfold as_dm in Ed. destruct o as [l X Y rl cx cy fin]. cbn in *. destruct X, Y; try discriminate. injection Ed as <-. auto.
Qed.
Lemma bind_ok {A B} (m : prog A) (f : A -> prog B) s t r : exec s (pbind m f) = (t, Ok r) -> exists u a, exec s m = (u, Ok a) /\ exec u (f a) = (t, Ok r).
Proof. rewrite exec_bind. destruct (exec s m) as (u & [a|e]); [|discriminate]. eauto. Qed.
(** a save that returns had three final matrices and an unlocked folder, and stored them *)
Theorem C78_save_returned : forall lp s x t, tidy x -> exec s (xsave lp x) = (t, Ok tt) ->
  ~ locked s (lp_path lp) /\
  forall w, exists a d, returns x w a (of_dm d) /\ dm_final d = true /\ holds_matrix t (lp_path lp) d.
Proof.
  intros lp s x t T E. pose proof E as E0. unfold xsave in E.
  apply bind_ok in E. destruct E as (u1 & [] & Ea & E). apply bind_ok in E. destruct E as (u2 & [] & _ & E).
  apply bind_ok in E. destruct E as (u3 & b & _ & E). destruct b; [discriminate|]. apply bind_ok in E. destruct E as (u4 & [] & E2 & E3).
  apply bind_ok in Ea. destruct Ea as (v1 & [] & _ & Ea). apply bind_ok in Ea. destruct Ea as (v2 & b & _ & Ea). destruct b; [discriminate|].
  apply save_ref_inv in Ea, E2, E3. destruct Ea as (a1 & d1 & R1 & H1 & F1). destruct E2 as (a2 & d2 & R2 & H2 & F2). destruct E3 as (a3 & d3 & R3 & H3 & F3).
  rewrite (xsave_eq lp x d1 d2 d3 a1 a2 a3) in E0 by assumption.
  assert (L : forall w a d, ref w x = Some a -> nth_error (x_heap x) a = Some (of_dm d) -> dm_label d = label_of w).
  { intros w a d Hr Hd. destruct T as (T & _). destruct (T w a) as (o & E1 & E2 & _); [rewrite get_some; assumption|]. rewrite Hd in E1. injection E1 as <-. exact E2. }
  assert (P : proper_labels (WithSplit d1 d2 d3)).
  { unfold proper_labels. cbn [map parts has_split part_labels]. rewrite (L Full a1 d1), (L Train a2 d2), (L Test a3 d3) by assumption. reflexivity. }
  destruct (save_built_spec lp (WithSplit d1 d2 d3) s P) as (_ & Q). rewrite E0 in Q. cbn [fst snd] in Q. destruct (Q eq_refl) as (Q1 & Q2).
  split; [exact Q1|]. intros []; [exists a1, d1|exists a2, d2|exists a3, d3]; (split; [split; [apply get_some|]; assumption|]); (split; [assumption|]); apply Q2; cbn [parts In]; auto.
Qed.
(** without a final full matrix save raises and writes nothing into the folder *)
Theorem C78_save_needs_final : forall lp s x,
  (forall a d, returns x Full a (of_dm d) -> dm_final d = false) ->
  (exists e, snd (exec s (xsave lp x)) = Err e) /\
  forall q, below q (lp_path lp) = true -> q <> lp_path lp -> lookup (fst (exec s (xsave lp x))) q = lookup s q.
Proof.
  intros lp s x H.
  assert (N : exists e, save_ref lp Full x = Raise e).
  { unfold save_ref. destruct (ref Full x) as [a|] eqn:Ea; [|eauto]. destruct (nth_error (x_heap x) a) as [o|] eqn:Eo; [|eauto].
    unfold dm_save. destruct (j_final o) eqn:F; cbn [negb]; [|eauto]. destruct (as_dm o) as [d|] eqn:Ed; [|eauto]. exfalso.
    assert (o = of_dm d /\ dm_final d = true) as (-> & F').
    { unfold as_dm in Ed. destruct o as [l X Y rl cx cy fin]. cbn in *. destruct X, Y; try discriminate. injection Ed as <-. auto. }
    assert (dm_final d = false) by (apply (H a); split; [apply get_some|]; assumption). congruence. }
  destruct N as (e0 & N). unfold xsave. rewrite N.
  destruct (ensure_spec lp s) as (HI & HQ). specialize (HI _ (states_last _ _)).
  rewrite !exec_bind. destruct (exec s (lp_ensure_folder lp)) as (u & [[]|e]) eqn:Eu; cbn [fst snd] in *; [|split; [eauto|exact HI]].
  rewrite exec_bind. destruct (is_locked_any lp u) as (b & Eb & _). rewrite Eb. destruct b; cbn [exec fst snd]; (split; [eauto|exact HI]).
Qed.

(** *** finalize *)
Lemma on_finalize w x : tidy x -> (exists e, snd (on_matrix dm_finalize w x) = Err e) \/
  exists a d, returns x w a (of_dm d) /\ snd (on_matrix dm_finalize w x) = Ok tt /\ (forall v, ref v (fst (on_matrix dm_finalize w x)) = ref v x) /\
    (forall b, b <> a -> nth_error (x_heap (fst (on_matrix dm_finalize w x))) b = nth_error (x_heap x) b).
Proof.
  intros (T & _). unfold on_matrix at 1. destruct (ref w x) as [a|] eqn:Ea; [|left; eexists; reflexivity].
  destruct (T w a) as (o & Eo & _ & F); [rewrite get_some; assumption|]. rewrite Eo.
  destruct (on_matrix_step dm_finalize w x a o Ea Eo) as (y & Ey & _ & O & V & _).
  destruct (as_dm o) as [d|] eqn:Ed.
  - right. exists a, d. assert (o = of_dm d) as -> by (unfold as_dm in Ed; destruct o as [l X Y rl cx cy fin]; cbn in *; destruct X, Y; try discriminate; injection Ed as <-; reflexivity).
    rewrite dm_finalize_of in Ey. rewrite Ey. cbn [fst snd]. split; [split; [apply get_some|]; assumption|]. auto.
  - left. unfold dm_finalize. rewrite Ed. destruct (j_final o) eqn:Ef; [|eexists; reflexivity]. exfalso. destruct (F eq_refl) as (F1 & F2).
    unfold as_dm in Ed. destruct (j_X o); [|congruence]. destruct (j_Y o); [discriminate|congruence].
Qed.
(** finalize returns only if all three matrices are there with their X and Y; otherwise finalize_and_save raises before it touches the disk *)
Theorem C78_finalize_needs_all : forall lp auto_lock s x, tidy x ->
  (forall w, exists a d, returns x w a (of_dm d)) \/
  (exists y e, xfinalize x = (y, Err e) /\ xfinalize_and_save lp auto_lock s x = (s, y, Err e)).
Proof.
  intros lp auto s x T. unfold xfinalize_and_save.
  assert (H : (forall w, exists a d, returns x w a (of_dm d)) \/ exists y e, xfinalize x = (y, Err e)).
  { unfold xfinalize. pose proof (tidy_on_matrix dm_finalize Full x finalize_decent T) as T1.
    destruct (on_finalize Full x T) as [(e & E)|(a1 & d1 & R1 & E1 & V1 & O1)].
    { right. destruct (on_matrix dm_finalize Full x) as (y & r). cbn [snd] in E. subst r. exists y, e. reflexivity. }
    destruct (on_matrix dm_finalize Full x) as (x1 & r). cbn [fst snd] in *. subst r. cbn [and_then].
    pose proof (tidy_on_matrix dm_finalize Train x1 finalize_decent T1) as T2.
    destruct (on_finalize Train x1 T1) as [(e & E)|(a2 & d2 & R2 & E2 & V2 & O2)].
    { right. destruct (on_matrix dm_finalize Train x1) as (y & r). cbn [snd] in E. subst r. exists y, e. reflexivity. }
    destruct (on_matrix dm_finalize Train x1) as (x2 & r). cbn [fst snd] in *. subst r. cbn [and_then].
    destruct (on_finalize Test x2 T2) as [(e & E)|(a3 & d3 & R3 & E3 & V3 & O3)].
    { right. destruct (on_matrix dm_finalize Test x2) as (y & r). cbn [snd] in E. subst r. exists y, e. reflexivity. }
    left. destruct R1 as (R1 & H1), R2 as (R2 & H2), R3 as (R3 & H3). rewrite get_some in *.
    assert (X2 : ref Train x = Some a2) by (rewrite <- V1; assumption). assert (X3 : ref Test x = Some a3) by (rewrite <- V1, <- V2; assumption).
    destruct T as (_ & T).
    assert (N12 : a2 <> a1) by (intros ->; assert (Full = Train) by (apply (T Full Train a1); rewrite get_some; assumption); discriminate).
    assert (N13 : a3 <> a1) by (intros ->; assert (Full = Test) by (apply (T Full Test a1); rewrite get_some; assumption); discriminate).
    assert (N23 : a3 <> a2) by (intros ->; assert (Train = Test) by (apply (T Train Test a2); rewrite get_some; assumption); discriminate).
    rewrite O1 in H2 by assumption. rewrite O2, O1 in H3 by assumption.
    intros []; [exists a1, d1|exists a2, d2|exists a3, d3]; (split; [apply get_some|]); assumption. }
  destruct H as [H|(y & e & E)]; [left; exact H|right]. exists y, e. rewrite E. auto.
Qed.

(** *** round trip *)
(** what one object built and saved, any other object loads: same values, same labels *)
Theorem C78_round_trip : forall lp auto_lock source q shuffled s x t y z,
  (forall d, source = Ok d -> dm_label d = "dataset") ->
  xbuild lp true auto_lock source q shuffled s x = (t, y, Ok tt) ->
  (forall w a d, returns y w a (of_dm d) -> storable d) -> tidy z ->
  exists z', xload t lp z = (z', Ok tt) /\
    forall w, exists a d b d', returns y w a (of_dm d) /\ returns z' w b (of_dm d') /\
      dm_label d' = dm_label d /\ sm_ncols (dm_X d') = sm_ncols (dm_X d) /\ sm_rows (dm_X d') = sm_rows (dm_X d) /\
      sm_ncols (dm_Y d') = sm_ncols (dm_Y d) /\ sm_rows (dm_Y d') = sm_rows (dm_Y d) /\
      dm_row_labels d' = dm_row_labels d /\ dm_labels_X d' = dm_labels_X d /\ dm_labels_Y d' = dm_labels_Y d /\
      dm_final d = true /\ dm_final d' = true.
Proof.
  intros lp auto source q sh s x t y z L E St Tz.
  destruct (C78_build_returned lp true auto source q sh s x t y L E) as (d & sp & -> & Es & _ & Hd). destruct (Hd eq_refl) as (_ & _ & Hm).
  destruct (C78_build lp true auto d q sh sp s x Es) as (y' & Ey & Hr & _). rewrite E in Ey. assert (y' = y) by congruence. subst y'. clear Ey.
  set (D := fun w => finalize (pick w d (s_train sp) (s_test sp))).
  assert (Lb : forall w, dm_label (pick w d (s_train sp) (s_test sp)) = label_of w).
  { unfold perform_split, bind in Es. destruct (select_rows d _ "dataset_train") as [tr|] eqn:E1; [|discriminate].
    destruct (select_rows d _ "dataset_test") as [te|] eqn:E2; [|discriminate]. apply Ok_inj in Es. subst sp. cbn [s_train s_test].
    apply select_rows_label in E1; [|reflexivity]. apply select_rows_label in E2; [|reflexivity].
    intros []; cbn [pick label_of]; [apply L; reflexivity|apply E1|apply E2]. }
  assert (Fl : forall m, dm_label (finalize m) = dm_label m) by (intros m; unfold finalize; destruct (dm_final m); reflexivity).
  assert (Fh : forall m, holds_matrix t (lp_path lp) m -> holds_matrix t (lp_path lp) (finalize m)) by (intros m Hh; unfold finalize; destruct (dm_final m); exact Hh).
  destruct (C78_load lp t z D Tz) as (z' & Ez & Hz & _).
  { intros w. split; [unfold D; rewrite Fl; apply Lb|]. split; [apply Fh, Hm|]. destruct (Hr w) as (a & _ & Ha). apply (St w a). exact Ha. }
  exists z'. split; [exact Ez|]. intros w. destruct (Hr w) as (a & _ & Ha). cbv zeta in Ha. fold (D w) in Ha. destruct (Hz w) as (b & f & _ & Hb & _).
  exists a, (D w), b, (after_load f (D w)). split; [exact Ha|]. split; [exact Hb|]. unfold after_load. cbn [dm_label dm_X dm_Y dm_row_labels dm_labels_X dm_labels_Y dm_final sm_ncols sm_rows].
  repeat (split; [reflexivity|]). split; [apply final_finalize|reflexivity].
Qed.

(** *** a concrete object: three samples, two thirds of them for training *)
Definition x_lp : lockable := exds_definition [] "things".
Definition x_data : dmatrix := DMat "dataset" (SMat CSR 2 [[1; 0]; [2; 5]; [0; 3]]%Z) (SMat CSR 1 [[1]; [0]; [1]]%Z) [[97]; [98]; [99]] [[120]; [121]] [[122]] false.
Definition x_sh : list nat := [2; 0; 1].
Definition x_built : fs * exds * res unit := xbuild x_lp true true (Ok x_data) (2 # 3) x_sh [] (new_exds []).
Theorem C78_example_build : snd x_built = Ok tt /\ tidy (snd (fst x_built)) /\
  x_train_rows (snd (fst x_built)) = Some [0; 2] /\ x_test_rows (snd (fst x_built)) = Some [1] /\
  exists a, returns (snd (fst x_built)) Test a (DMObj "dataset_test" (Some (SMat CSC 2 [[2; 5]]%Z)) (Some (SMat CSC 1 [[0]]%Z)) [[98]] [[120]; [121]] [[122]] true).
Proof.
  split; [vm_compute; reflexivity|]. split; [apply tidy_build; [intros d E; apply Ok_inj in E; subst d; reflexivity|apply tidy_new]|].
  split; [vm_compute; reflexivity|]. split; [vm_compute; reflexivity|]. exists 2. split; vm_compute; reflexivity.
Qed.
(** loading it into a new object gives it in compressed-column format, loading it into the object that built it (whose matrices are final) in
    compressed-row format; a new object does not learn the row lists *)
Theorem C78_example_load_twice :
  let y := snd (fst x_built) in let t := fst (fst x_built) in
  let z := fst (xload t x_lp (new_exds [])) in let y' := fst (xload t x_lp y) in
  snd (xload t x_lp (new_exds [])) = Ok tt /\ snd (xload t x_lp y) = Ok tt /\
  (exists o, returns z Train 1 o /\ j_X o = Some (SMat CSC 2 [[1; 0]; [0; 3]]%Z) /\ j_final o = true) /\
  (exists o, returns y' Train 1 o /\ j_X o = Some (SMat CSR 2 [[1; 0]; [0; 3]]%Z) /\ j_final o = true) /\
  x_train_rows z = None /\ x_total z = 0.
Proof.
  cbv zeta. split; [vm_compute; reflexivity|]. split; [vm_compute; reflexivity|].
  split; [eexists; split; [split; vm_compute; reflexivity|]; split; vm_compute; reflexivity|].
  split; [eexists; split; [split; vm_compute; reflexivity|]; split; vm_compute; reflexivity|]. split; vm_compute; reflexivity.
Qed.
(** a second build whose split leaves no row for testing raises; 'full' is then the new data and 'test' still a part of the old *)
Theorem C78_example_failed_rebuild :
  let y := snd (fst x_built) in let t := fst (fst x_built) in
  let data2 := DMat "dataset" (SMat CSR 1 [[7]; [8]]%Z) (SMat CSR 1 [[1]; [0]]%Z) [[100]; [101]] [[120]] [[122]] false in
  let w := xbuild x_lp true true (Ok data2) 1 [1; 0] t y in
  snd w = Err ValueError /\ (exists a, returns (snd (fst w)) Full a (of_dm data2)) /\
  (exists a o, returns (snd (fst w)) Test a o /\ j_X o = Some (SMat CSC 2 [[2; 5]]%Z)) /\ x_test_rows (snd (fst w)) = Some [].
Proof.
  cbv zeta. split; [vm_compute; reflexivity|]. split; [exists 3; split; vm_compute; reflexivity|].
  split; [exists 2; eexists; split; [split; vm_compute; reflexivity|]; vm_compute; reflexivity|]. vm_compute. reflexivity.
Qed.
Theorem C78_example_save_too_early :
  snd (exec [] (xsave x_lp (new_exds []))) = Err AttributeError /\ lookup (fst (exec [] (xsave x_lp (new_exds [])))) ["things"] = Some Dir /\
  let y := snd (fst (xbuild x_lp false true (Ok x_data) (2 # 3) x_sh [] (new_exds []))) in
  snd (exec [] (xsave x_lp y)) = Err MatrixNotFinalized.
Proof. cbv zeta. repeat split; vm_compute; reflexivity. Qed.
Print Assumptions C78_histories.
Print Assumptions C78_build_returned.
Print Assumptions C78_load.
Print Assumptions C78_load_returns_iff.
Print Assumptions C78_round_trip.
Print Assumptions C78_save_returned.
