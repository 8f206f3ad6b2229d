(** A build with nothing in its way succeeds, and what it leaves can be loaded. *)
From Coq Require Import String.
From Verif Require Import Base Matrix_Model Text_Model Text_Proofs FS_Model FS_Proofs Storage_Model Storage_Spec Storage_Proofs Exds_Proofs.
Open Scope string_scope.
Open Scope list_scope.

Section Folder.
  Variable lp : lockable.
  Let P := lp_path lp.

  Lemma unlocked_same s t : same_locks lp s t -> ~ locked s P -> ~ locked t P.
  Proof. intros H Hu Hl. apply Hu. exact (proj1 (same_locks_locked lp s t H) Hl). Qed.
  Lemma grown_dir s t q : grown s t q -> is_dir s q = true -> is_dir t q = true.
  Proof.
    intros Hg H. unfold is_dir in *. destruct q; [reflexivity|]. destruct Hg as [->|(E & _)]; [assumption|].
    rewrite E in H. discriminate.
  Qed.
  Lemma P_not_file label : ~ In P (matrix_files (P ++ [label])).
  Proof. intros H. apply matrix_files_form in H. destruct H as (n & E). apply (f_equal (@length _)) in E. rewrite !app_length in E. cbn [length] in E. lia. Qed.
  (** other parts stay writable while one is being saved *)
  Lemma writable_keep s t l1 l2 : l1 <> l2 ->
    (forall q, ~ In q (matrix_files (P ++ [l1])) -> grown s t q /\ (below (P ++ [l1]) q = false -> lookup t q = lookup s q)) ->
    writable s (P ++ [l2]) -> writable t (P ++ [l2]).
  Proof.
    intros N Ht (W1 & W2). split.
    - intros q c Hb. assert (Nq : ~ In q (matrix_files (P ++ [l1]))).
      { intros Hin. apply matrix_files_form in Hin. destruct Hin as (n & ->). apply below_length in Hb. rewrite !app_length in Hb. cbn [length] in Hb. lia. }
      destruct (Ht q Nq) as ([E|(_ & E)] & _); rewrite E; [apply W1; assumption|discriminate].
    - intros q Hq. assert (Nq : ~ In q (matrix_files (P ++ [l1]))) by (apply (files_disjoint lp) with (l1 := l2); [congruence|assumption]).
      destruct (Ht q Nq) as (_ & E). rewrite E; [apply W2; assumption|].
      destruct (below (P ++ [l1]) q) eqn:B; [|reflexivity]. apply matrix_files_form in Hq. destruct Hq as (n & ->).
      apply below_length in B. rewrite !app_length in B. cbn [length] in B. lia.
  Qed.
  Lemma writable_mkdirs s t l2 :
    (forall q, (below P q = false -> lookup t q = lookup s q) /\ grown s t q) -> writable s (P ++ [l2]) -> writable t (P ++ [l2]).
  Proof.
    intros Ht (W1 & W2). split.
    - intros q c Hb. destruct (Ht q) as (_ & [E|(_ & E)]); rewrite E; [apply W1; assumption|discriminate].
    - intros q Hq. rewrite (proj1 (Ht q)); [apply W2; assumption|]. apply (file_inside lp) in Hq. apply Hq.
  Qed.
  Lemma writable_prefix s label q c : writable s (P ++ [label]) -> below P q = true -> lookup s q <> Some (File c).
  Proof. intros (W & _) Hb. apply W. eapply below_trans; [apply below_app|exact Hb]. Qed.

  Definition others_writable (s t : fs) (l : string) : Prop :=
    forall l2, l2 <> l -> writable s (P ++ [l2]) -> writable t (P ++ [l2]).

  Lemma save_dm_run d s : no_lock_label (dm_label d) -> dm_final d = true -> writable s (P ++ [dm_label d]) -> is_dir s P = true ->
    exists t, exec s (save_dm d P) = (t, Ok tt) /\ is_dir t P = true /\ same_locks lp s t /\ others_writable s t (dm_label d) /\ holds_matrix t P d.
  Proof.
    intros Hn Hf Hw Hd. pose proof (save_dm_ok d P s Hf Hw) as Hok.
    destruct (save_dm_spec d P s) as (HI & HQ). destruct (save_dm_inside lp d s Hn) as (HJ & _).
    fold P in HJ. specialize (HI _ (states_last _ _)). specialize (HJ _ (states_last _ _)). cbn beta in HI, HJ.
    destruct (exec s (save_dm d P)) as (t & r). cbn [fst snd] in *. subst r. exists t. split; [reflexivity|].
    split; [eapply grown_dir; [apply HI, P_not_file|assumption]|]. split; [apply HJ|]. split.
    - intros l2 N. apply (writable_keep s t (dm_label d)); [congruence|exact HI].
    - destruct HQ as [(_ & _ & H)|[?|(? & _)]]; [assumption|discriminate|discriminate].
  Qed.
  Lemma ensure_run s label : writable s (P ++ [label]) ->
    exists t, exec s (lp_ensure_folder lp) = (t, Ok tt) /\ is_dir t P = true /\ same_locks lp s t /\ same_inside lp s t /\
      forall l2, writable s (P ++ [l2]) -> writable t (P ++ [l2]).
  Proof.
    intros Hw. unfold lp_ensure_folder. fold P.
    assert (Hok : snd (exec s (mkdirs P)) = Ok tt) by (apply mkdirs_ok; intros q c Hb; apply (writable_prefix s label); assumption).
    destruct (mkdirs_spec P s) as (HI & HQ). destruct (ensure_spec lp s) as (HJ & _). unfold lp_ensure_folder in HJ. fold P in HJ.
    specialize (HI _ (states_last _ _)). specialize (HJ _ (states_last _ _)). cbn beta in HI.
    destruct (exec s (mkdirs P)) as (t & r). cbn [fst snd] in *. subst r. exists t. split; [reflexivity|].
    split; [|split; [apply same_inside_locks; exact HJ|split; [exact HJ|]]].
    - destruct HQ as [(_ & HD)|?]; [|discriminate]. unfold is_dir. destruct P eqn:E; [reflexivity|].
      rewrite HD; [reflexivity|discriminate|apply below_refl].
    - intros l2. apply writable_mkdirs. exact HI.
  Qed.
  Lemma unlocked_run s : ~ locked s P -> exec s (folder_is_locked lp "") = (s, Ok false).
  Proof.
    intros H. destruct (is_locked_any lp s) as (b & E & _ & Hb). rewrite E. destruct b; [|reflexivity].
    exfalso. apply H, Hb. reflexivity.
  Qed.
  Lemma locked_run s : locked s P -> exec s (folder_is_locked lp "") = (s, Ok true).
  Proof.
    intros H. destruct (is_locked_any lp s) as (b & E & _ & Hb). rewrite E. destruct b; [reflexivity|].
    apply Hb in H. discriminate.
  Qed.
  Lemma save_plain_run m s : no_lock_label (dm_label m) -> dm_final m = true -> ~ locked s P -> writable s (P ++ [dm_label m]) ->
    exists t, exec s (save_plain lp m) = (t, Ok tt) /\ is_dir t P = true /\ same_locks lp s t /\ others_writable s t (dm_label m) /\ holds_matrix t P m.
  Proof.
    intros Hn Hf Hu Hw. unfold save_plain. rewrite exec_bind. destruct (ensure_run s (dm_label m) Hw) as (t & -> & H1 & H2 & _ & H3).
    assert (Hu' : ~ locked t P) by (apply (unlocked_same s); assumption).
    rewrite exec_bind, unlocked_run by assumption. cbn iota beta. fold P.
    destruct (save_dm_run m t Hn Hf (H3 _ Hw) H1) as (u & -> & G1 & G2 & G3 & G4). exists u. split; [reflexivity|].
    split; [assumption|]. split; [apply (same_locks_trans lp s t u); assumption|]. split; [|assumption].
    intros l2 N W. apply G3, H3; assumption.
  Qed.
  Lemma save_built_run b s : proper_labels b -> (forall d, In d (parts b) -> dm_final d = true) -> ~ locked s P ->
    (forall d, In d (parts b) -> writable s (P ++ [dm_label d])) ->
    exists t, exec s (save_built lp b) = (t, Ok tt) /\ is_dir t P = true /\ same_locks lp s t.
  Proof.
    intros Hp Hf Hu Hw. destruct b as [m|f tr te]; cbn [save_built].
    - destruct (save_plain_run m s) as (t & E & H1 & H2 & _); try (apply Hf || apply Hw); try assumption; try (left; reflexivity).
      + apply (proper_no_lock (Plain m)); [assumption|left; reflexivity].
      + exists t. auto.
    - assert (L : dm_label f = "dataset" /\ dm_label tr = "dataset_train" /\ dm_label te = "dataset_test").
      { unfold proper_labels in Hp. cbn in Hp. inversion Hp. auto. }
      destruct L as (Lf & Ltr & Lte).
      assert (Nf : forall d, In d (parts (WithSplit f tr te)) -> no_lock_label (dm_label d)) by (intros d; apply proper_no_lock; assumption).
      cbn [parts In] in *.
      destruct (save_plain_run f s) as (t1 & E1 & D1 & S1 & O1 & _); auto.
      rewrite exec_bind, E1. cbn beta iota.
      assert (W1 : forall d, d = tr \/ d = te -> writable t1 (P ++ [dm_label d])).
      { intros d Hd. apply O1; [|apply Hw; intuition (subst; auto)].
        destruct Hd as [Hd|Hd]; subst d; rewrite Lf, ?Ltr, ?Lte; discriminate. }
      destruct (ensure_run t1 (dm_label tr)) as (t2 & E2 & D2 & S2 & _ & O2); [apply W1; auto|].
      rewrite exec_bind, E2. cbn beta iota.
      assert (Hu2 : ~ locked t2 P).
      { apply (unlocked_same t1); [assumption|]. apply (unlocked_same s); assumption. }
      rewrite exec_bind, unlocked_run by assumption. cbn beta iota. fold P.
      destruct (save_dm_run tr t2) as (t3 & E3 & D3 & S3 & O3 & _); auto.
      rewrite exec_bind, E3. cbn beta iota.
      destruct (save_dm_run te t3) as (t4 & E4 & D4 & S4 & _); auto.
      { apply O3; [rewrite Ltr, Lte; discriminate|]. auto. }
      exists t4. split; [assumption|]. split; [assumption|].
      apply (same_locks_trans lp s t1); [assumption|]. apply (same_locks_trans lp t1 t2); [assumption|]. apply (same_locks_trans lp t2 t3); assumption.
  Qed.
  Lemma final_finalize d : dm_final (finalize d) = true.
  Proof. unfold finalize. destruct (dm_final d) eqn:E; [assumption|reflexivity]. Qed.
  Lemma lock_run ty s : ~ locked s P -> is_dir s P = true -> snd (exec s (lock_folder lp ty)) = Ok tt.
  Proof.
    intros Hu Hd. unfold lock_folder. fold (the_type lp ty). set (ty' := the_type lp ty).
    assert (Hl : exec s (folder_is_locked lp ty') = (s, Ok false)).
    { unfold folder_is_locked. destruct (String.eqb ty' "") eqn:E; [exact (unlocked_run s Hu)|].
      cbn [exec]. do 2 f_equal. destruct (get_lock_form lp ty') as (n & Hn & ->). unfold exists_.
      destruct (lp_path lp ++ [n]) eqn:G; [destruct (lp_path lp); discriminate|]. rewrite <- G. fold P.
      destruct (lookup s (P ++ [n])) eqn:E2; [|reflexivity]. exfalso. apply Hu. exists n. split; [assumption|congruence]. }
    rewrite exec_bind, Hl. cbn iota beta. destruct (get_lock_form lp ty') as (n & Hn & ->).
    apply write_file_ok; [destruct (lp_path lp); discriminate| |].
    - intros E. apply Hu. exists n. split; [assumption|]. fold P in E. congruence.
    - rewrite parent_app. exact Hd.
  Qed.

  Lemma build_run b s : proper_labels b -> ~ locked s P -> (forall label, In label (map dm_label (parts b)) -> writable s (P ++ [label])) ->
    exists t, exec s (build lp true true (Ok b)) = (t, Ok tt) /\ locked t P /\ stored t P b /\ is_dir t P = true.
  Proof.
    intros Hp Hu Hw. destruct (build_spec lp true true (Ok b) s) as (_ & HQ); [intros b' E; inversion E; subst; assumption|].
    assert (Hrun : exists t, exec s (build lp true true (Ok b)) = (t, Ok tt) /\ is_dir t P = true).
    { unfold build. cbn [lift pbind]. unfold finalize_and_save. rewrite exec_bind.
      destruct (save_built_run (finalize_built b) s) as (t & -> & D & S).
      - apply proper_finalize. assumption.
      - rewrite parts_finalize. intros d Hd. apply in_map_iff in Hd. destruct Hd as (d' & <- & _). apply final_finalize.
      - assumption.
      - rewrite parts_finalize. intros d Hd. apply in_map_iff in Hd. destruct Hd as (d' & <- & Hd). rewrite label_finalize.
        apply Hw, in_map, Hd.
      - cbn iota beta. assert (Hu' : ~ locked t P) by (apply (unlocked_same s); assumption).
        pose proof (lock_run "" t Hu' D) as Hok. destruct (lock_spec lp "" t) as (HI & _). specialize (HI _ (states_last _ _)). cbn beta in HI.
        destruct (exec t (lock_folder lp "")) as (u & r). cbn [fst snd] in *. subst r. exists u. split; [reflexivity|].
        unfold is_dir in *. destruct P eqn:EP; [reflexivity|]. rewrite HI; [assumption|].
        destruct (get_lock_form lp (the_type lp "")) as (n & _ & ->). fold P. rewrite EP.
        intros E. apply (f_equal (@length _)) in E. rewrite app_length in E. cbn [length] in E. lia. }
    destruct Hrun as (t & E & D). rewrite E in HQ. cbn [fst snd] in HQ. destruct (HQ eq_refl eq_refl) as (_ & b' & E' & H1 & H2).
    inversion E'; subst b'. exists t. auto.
  Qed.

  (** what loading gives *)
  Definition loaded_built (b : built) : built :=
    match b with
    | Plain m => Plain (loaded "dataset" false m)
    | WithSplit f tr te => WithSplit (loaded "dataset" false f) (loaded "dataset_train" false tr) (loaded "dataset_test" false te)
    end.
  Lemma load_built_exec b s : proper_labels b -> stored s P b -> exec s (load_built lp (has_split b)) = (s, Ok (loaded_built b)).
  Proof.
    intros Hp Hs. unfold load_built. fold P. destruct b as [m|f tr te]; cbn [has_split].
    - assert (L : dm_label m = "dataset") by (unfold proper_labels in Hp; cbn in Hp; inversion Hp; auto).
      rewrite exec_bind, <- L, load_dm_exec by (apply Hs; left; reflexivity). cbn [exec]. rewrite L. reflexivity.
    - assert (L : dm_label f = "dataset" /\ dm_label tr = "dataset_train" /\ dm_label te = "dataset_test").
      { unfold proper_labels in Hp. cbn in Hp. inversion Hp. auto. }
      destruct L as (Lf & Ltr & Lte).
      rewrite exec_bind, <- Lf, load_dm_exec by (apply Hs; left; reflexivity). cbn beta iota.
      rewrite exec_bind, <- Ltr, load_dm_exec by (apply Hs; right; left; reflexivity). cbn beta iota.
      rewrite exec_bind, <- Lte, load_dm_exec by (apply Hs; right; right; left; reflexivity). cbn [exec].
      cbn [loaded_built]. rewrite Lf, Ltr, Lte. reflexivity.
  Qed.
  Lemma loaded_read_back d : storable_labels (dm_row_labels d) -> storable_labels (dm_labels_X d) -> storable_labels (dm_labels_Y d) ->
    loaded (dm_label d) false d = read_back d.
  Proof.
    intros H1 H2 H3. unfold loaded. apply (proj2 (labels_roundtrip _)) in H1, H2, H3. rewrite H1, H2, H3. reflexivity.
  Qed.
  Definition storable (d : dmatrix) : Prop :=
    storable_labels (dm_row_labels d) /\ storable_labels (dm_labels_X d) /\ storable_labels (dm_labels_Y d).
  Lemma loaded_built_read_back b : proper_labels b -> (forall d, In d (parts b) -> storable d) -> loaded_built b = read_back_built b.
  Proof.
    intros Hp H. unfold proper_labels in Hp.
    destruct b as [m|f tr te]; cbn [loaded_built read_back_built parts In map has_split part_labels] in *.
    - injection Hp as E1. destruct (H m) as (A1 & A2 & A3); [auto|]. pose proof (loaded_read_back m A1 A2 A3) as R. rewrite E1 in R. rewrite R. reflexivity.
    - injection Hp as E1 E2 E3. destruct (H f) as (A1 & A2 & A3); [auto|]. destruct (H tr) as (B1 & B2 & B3); [auto|]. destruct (H te) as (C1 & C2 & C3); [auto|].
      pose proof (loaded_read_back f A1 A2 A3) as R1. pose proof (loaded_read_back tr B1 B2 B3) as R2. pose proof (loaded_read_back te C1 C2 C3) as R3.
      rewrite E1 in R1. rewrite E2 in R2. rewrite E3 in R3. rewrite R1, R2, R3. reflexivity.
  Qed.
End Folder.
