(** C42: a dataset folder that is locked was completely saved.
    Statements use Storage_Spec.v, Exds_Proofs.stored / Exds_Success.storable (restated below) and the
    histories defined here. *)
From Coq Require Import String.
From Verif Require Import Base Matrix_Model Text_Model Text_Proofs FS_Model FS_Proofs Storage_Model Storage_Spec Storage_Proofs Exds_Proofs Exds_Success Exds_Concurrent.
Open Scope string_scope.
Open Scope list_scope.

(** every matrix of [b] is on the disk, in full *)
Definition on_disk (s : fs) (folder : path) (b : built) : Prop := forall d, In d (parts b) -> holds_matrix s folder d.
Definition clean_labels (b : built) : Prop :=
  forall d, In d (parts b) -> storable_labels (dm_row_labels d) /\ storable_labels (dm_labels_X d) /\ storable_labels (dm_labels_Y d).

(** the calls a program can make on an experimental dataset and its definition *)
Inductive call :=
| CBuild (do_save auto_lock : bool) (source : res built)  (* exds.build() *)
| CSave (b : built)                                       (* exds.save() *)
| CLoad (with_split : bool)                               (* exds.load() *)
| CReady                                                  (* definition.exds_ready() *)
| CLock (ty : string)                                     (* definition.lock_folder(ty) *)
| CUnlock (ty : string)
| CDelete                                                 (* definition.delete_folder() *)
| CDeleteSub (name : string).
Definition unit_of {A} (m : prog A) : prog unit := m ;;; Ret tt.
Definition run_call (lp : lockable) (c : call) : prog unit :=
  match c with
  | CBuild do_save auto_lock source => build lp do_save auto_lock source
  | CSave b => save_built lp b
  | CLoad w => unit_of (load_built lp w)
  | CReady => unit_of (exds_ready lp)
  | CLock ty => lock_folder lp ty
  | CUnlock ty => unlock_folder lp ty
  | CDelete => delete_folder lp
  | CDeleteSub name => delete_subfolder lp name
  end.
(** [D] is the set of datasets that are ever built or saved; a user locks a folder by hand only when
    it contains one of them *)
Definition allowed (lp : lockable) (D : built -> Prop) (s : fs) (c : call) : Prop :=
  match c with
  | CBuild _ _ source => forall b, source = Ok b -> D b
  | CSave b => D b
  | CLock _ => exists b, D b /\ on_disk s (lp_path lp) b
  | _ => True
  end.
(** any number of calls, each stopped at any point (or completed), and any number of changes made
    elsewhere on the disk *)
Inductive history (lp : lockable) (D : built -> Prop) (s : fs) : fs -> Prop :=
| h_start : history lp D s s
| h_call t c u : history lp D s t -> allowed lp D t c -> In u (states t (run_call lp c)) -> history lp D s u
| h_elsewhere t u : history lp D s t -> (forall q, below q (lp_path lp) = true -> lookup u q = lookup t q) -> history lp D s u.

Lemma exds_ready_states lp s t : In t (states s (exds_ready lp)) -> t = s.
Proof.
  unfold exds_ready, folder_exists, folder_is_locked. cbn [pbind states]. intros [H|H]; [auto|].
  destruct (exists_ s (lp_path lp)); cbn [pbind states String.eqb In] in H; intuition auto.
Qed.
Lemma unit_of_states {A} (m : prog A) s t : (forall u, In u (states s m) -> u = s) -> In t (states s (unit_of m)) -> t = s.
Proof.
  intros H Hin. unfold unit_of in Hin. apply states_bind in Hin. destruct Hin as [Hin|(a & _ & Hin)]; [auto|].
  rewrite (H _ (states_last _ _)) in Hin. destruct Hin as [<-|[]]. reflexivity.
Qed.

(** For every history of calls on a dataset folder, with the process stopping anywhere: whenever the
    folder carries a lock, it contains, complete, one of the datasets that were built or saved. *)
Theorem C42_locked_means_complete : forall lp (D : built -> Prop) s t,
  (forall b, D b -> proper_labels b) ->
  (locked s (lp_path lp) -> exists b, D b /\ on_disk s (lp_path lp) b) ->
  history lp D s t ->
  locked t (lp_path lp) -> exists b, D b /\ on_disk t (lp_path lp) b.
Proof.
  intros lp D s t HD Hs H. induction H as [|t c u H IH Hc Hu|t u H IH Hu].
  - exact Hs.
  - assert (Hq : forall v, quiet lp t v -> locked v (lp_path lp) -> exists b, D b /\ on_disk v (lp_path lp) b).
    { intros v (Q1 & Q2) Hl. apply (same_locks_locked lp t v Q1) in Hl. destruct (IH Hl) as (b & Hb & Ho). exists b. split; [assumption|].
      apply (stored_inside lp t v b); [exact Ho|auto]. }
    intros Hl. destruct c as [do_save auto_lock source|b|w| |ty|ty| |name]; cbn [run_call allowed] in *.
    + destruct (build_spec lp do_save auto_lock source t) as (HI & _); [intros b E; apply HD, Hc, E|].
      destruct (HI u Hu) as [Q|(_ & b & E & Ho)]; [apply Hq; assumption|]. exists b. split; [apply Hc, E|exact Ho].
    + destruct (save_built_spec lp b t (HD b Hc)) as (HI & _). apply Hq; [apply HI|]; assumption.
    + assert (u = t) as -> by (apply (unit_of_states (load_built lp w)); [apply load_built_states|assumption]). auto.
    + assert (u = t) as -> by (apply (unit_of_states (exds_ready lp)); [apply exds_ready_states|assumption]). auto.
    + destruct Hc as (b & Hb & Ho). exists b. split; [assumption|]. destruct (lock_spec lp ty t) as (HI & _).
      apply (stored_lock_only lp t u b _ Ho (HI u Hu)).
    + destruct (unlock_spec lp ty t) as (HI & _). specialize (HI u Hu). cbn beta in HI.
      assert (Hlt : locked t (lp_path lp)).
      { destruct Hl as (name & Hn & Hl). destruct (list_eq_dec string_dec (lp_path lp ++ [name]) (get_lock lp (the_type lp ty))) as [E|N].
        - destruct (lookup t (lp_path lp ++ [name])) eqn:El; [exists name; split; [assumption|congruence]|].
          (* the lock file was not there: unlocking did not create it *)
          exfalso. clear IH Hs H Hq. revert Hu Hl. unfold run_call, unlock_folder. fold (the_type lp ty).
          unfold folder_is_locked. rewrite E in *.
          assert (Hnone : forall v, In v (states t (unlink (get_lock lp (the_type lp ty)))) -> lookup v (get_lock lp (the_type lp ty)) = None).
          { unfold unlink. cbn [states]. unfold do_unlink. rewrite El. cbn [fst snd states]. intros v [<-|[<-|[]]]; assumption. }
          assert (Hnone2 : forall v, In v (states t (Ret tt)) -> lookup v (get_lock lp (the_type lp ty)) = None) by (intros v [<-|[]]; assumption).
          intros Hu Hl. apply Hl. apply states_bind in Hu.
          destruct (String.eqb (the_type lp ty) "").
          + destruct Hu as [Hu|(a & Ea & Hu)]; [cbn [states] in Hu; destruct Hu as [<-|[<-|[]]]; assumption|].
            cbn [exec fst] in Hu. destruct a; [apply Hnone|apply Hnone2]; assumption.
          + destruct Hu as [Hu|(a & Ea & Hu)]; [cbn [states] in Hu; destruct Hu as [<-|[<-|[]]]; assumption|].
            cbn [exec fst] in Hu. destruct a; [apply Hnone|apply Hnone2]; assumption.
        - exists name. split; [assumption|]. rewrite <- HI by assumption. assumption. }
      destruct (IH Hlt) as (b & Hb & Ho). exists b. split; [assumption|]. apply (stored_lock_only lp t u b _ Ho HI).
    + destruct (delete_folder_spec lp t) as (HI & _). destruct (HI u Hu) as (H1 & H2).
      destruct (is_locked_any lp t) as (x & _ & _ & Hx). destruct x; [|exfalso; apply H2; [intros L; apply Hx in L; discriminate|assumption]].
      rewrite (H1 (proj1 Hx eq_refl)) in *. auto.
    + destruct (delete_subfolder_spec lp name t) as (HI & _). destruct (HI u Hu) as (H1 & H2).
      destruct (is_locked_any lp t) as (x & _ & _ & Hx). destruct x; [|exfalso; apply H2; [intros L; apply Hx in L; discriminate|assumption]].
      rewrite (H1 (proj1 Hx eq_refl)) in *. auto.
  - intros (name & Hn & Hl). rewrite Hu in Hl by apply below_app.
    destruct (IH (ex_intro _ name (conj Hn Hl))) as (b & Hb & Ho). exists b. split; [assumption|].
    apply (stored_inside lp t u b); [exact Ho|]. intros q Hq _. apply Hu, Hq.
Qed.

(** ... so that loading it gives back exactly that dataset (labels as C38 says). *)
Theorem C42_locked_loads : forall lp (D : built -> Prop) s t,
  (forall b, D b -> proper_labels b /\ clean_labels b) ->
  (locked s (lp_path lp) -> exists b, D b /\ on_disk s (lp_path lp) b) ->
  history lp D s t -> locked t (lp_path lp) ->
  exists b, D b /\ exec t (load_built lp (has_split b)) = (t, Ok (read_back_built b)).
Proof.
  intros lp D s t HD Hs Hh Hl. destruct (C42_locked_means_complete lp D s t (fun b Hb => proj1 (HD b Hb)) Hs Hh Hl) as (b & Hb & Ho).
  exists b. split; [assumption|]. destruct (HD b Hb) as (H1 & H2).
  rewrite (load_built_exec lp b t H1 Ho), (loaded_built_read_back b H1 H2). reflexivity.
Qed.

(** A completed build with automatic locking leaves the folder locked, ready, and loading gives back
    what was built. *)
Theorem C42_build_then_load : forall lp s b,
  proper_labels b -> ~ locked s (lp_path lp) ->
  (forall label, In label (part_labels (has_split b)) -> writable s (lp_path lp ++ [label])) ->
  exists t, exec s (build lp true true (Ok b)) = (t, Ok tt) /\ locked t (lp_path lp) /\
    exec t (exds_ready lp) = (t, Ok true) /\
    (clean_labels b -> exec t (load_if_ready lp (has_split b)) = (t, Ok (Some (read_back_built b)))).
Proof.
  intros lp s b Hp Hu Hw. destruct (build_run lp b s Hp Hu) as (t & E & Hl & Hs & Hd).
  { intros label Hin. unfold proper_labels in Hp. rewrite Hp in Hin. apply Hw, Hin. }
  assert (Hr : exec t (exds_ready lp) = (t, Ok true)).
  { unfold exds_ready, folder_exists. cbn [pbind exec].
    assert (exists_ t (lp_path lp) = true) as ->.
    { unfold is_dir, exists_ in *. destruct (lp_path lp); [reflexivity|]. destruct (lookup t (s0 :: p)) as [[|]|]; congruence. }
    cbn [pbind]. apply (locked_run lp t Hl). }
  exists t. split; [assumption|]. split; [assumption|]. split; [assumption|]. intros Hc.
  unfold load_if_ready. rewrite exec_bind, Hr. cbn iota beta. rewrite exec_bind, (load_built_exec lp b t Hp Hs).
  cbn [exec]. rewrite (loaded_built_read_back b Hp Hc). reflexivity.
Qed.

(** Saving (or building) onto a locked folder is refused: nothing on the disk changes. *)
Theorem C42_locked_refused : forall lp s b do_save auto_lock,
  locked s (lp_path lp) -> (forall q, below (lp_path lp) q = true -> q <> [] -> lookup s q = Some Dir) ->
  exec s (save_built lp b) = (s, Err ExperimentalDatasetErr) /\
  (do_save = true -> exec s (build lp do_save auto_lock (Ok b)) = (s, Err ExperimentalDatasetErr)) /\
  (forall t, In t (states s (save_built lp b)) -> t = s).
Proof.
  intros lp s b do_save auto_lock Hl Hd.
  assert (Hm : forall ps, (forall p, In p ps -> p <> [] /\ below (lp_path lp) p = true) ->
             exec s (mkdir_all ps) = (s, Ok tt) /\ forall t, In t (states s (mkdir_all ps)) -> t = s).
  { induction ps as [|p ps IH]; intros H; cbn [mkdir_all exec states]; [split; [reflexivity|]; intros t [<-|[]]; reflexivity|].
    destruct (H p (or_introl eq_refl)) as (H1 & H2).
    assert (E : do_mkdir s p = (s, true)) by (unfold do_mkdir, is_dir; rewrite (Hd p H2 H1); destruct p; reflexivity).
    rewrite E. cbn [fst snd]. destruct IH as (I1 & I2); [intros q Hq; apply H; right; assumption|].
    split; [assumption|]. intros t [<-|Ht]; auto. }
  destruct (Hm (prefixes (lp_path lp))) as (M1 & M2); [intros p Hp; apply prefixes_spec, Hp|].
  assert (Hsp : forall m, exec s (save_plain lp m) = (s, Err ExperimentalDatasetErr) /\ (forall t, In t (states s (save_plain lp m)) -> t = s)).
  { intros m. unfold save_plain, lp_ensure_folder, mkdirs. split.
    - rewrite exec_bind, M1. rewrite exec_bind, (locked_run lp s Hl). reflexivity.
    - intros t Ht. apply states_bind in Ht. destruct Ht as [Ht|(a & _ & Ht)]; [auto|]. rewrite M1 in Ht. cbn [fst] in Ht.
      apply states_bind in Ht. destruct (is_locked_any lp s) as (x & E1 & E2 & _).
      destruct Ht as [Ht|(y & Ey & Ht)]; [rewrite E2 in Ht; destruct Ht as [<-|[<-|[]]]; reflexivity|].
      rewrite (locked_run lp s Hl) in Ey, Ht. cbn [fst snd] in Ey, Ht. inversion Ey; subst y. destruct Ht as [<-|[]]. reflexivity. }
  assert (Hsb : forall b, exec s (save_built lp b) = (s, Err ExperimentalDatasetErr) /\ (forall t, In t (states s (save_built lp b)) -> t = s)).
  { intros [m|f tr te]; cbn [save_built]; [apply Hsp|]. destruct (Hsp f) as (H1 & H2). split.
    - rewrite exec_bind, H1. reflexivity.
    - intros t Ht. apply states_bind in Ht. destruct Ht as [Ht|(a & Ea & Ht)]; [auto|]. rewrite H1 in Ea. discriminate. }
  destruct (Hsb b) as (B1 & B2). split; [exact B1|]. split; [|exact B2].
  intros ->. unfold build. cbn [lift pbind]. unfold finalize_and_save. rewrite exec_bind, (proj1 (Hsb (finalize_built b))). reflexivity.
Qed.

(** Deleting a locked dataset is refused and changes nothing. *)
Theorem C42_locked_not_deleted : forall lp s name, locked s (lp_path lp) ->
  exec s (delete_folder lp) = (s, Err LockedErr) /\ exec s (delete_subfolder lp name) = (s, Err LockedErr).
Proof.
  intros lp s name Hl.
  destruct (delete_folder_spec lp s) as (H1 & H2). destruct (delete_subfolder_spec lp name s) as (H3 & H4).
  split.
  - rewrite (surjective_pairing (exec s (delete_folder lp))). f_equal; [apply (H1 _ (states_last _ _)); assumption|apply H2; assumption].
  - rewrite (surjective_pairing (exec s (delete_subfolder lp name))). f_equal; [apply (H3 _ (states_last _ _)); assumption|apply H4; assumption].
Qed.

(** A process that loads the dataset only if it is ready, running at the same time as one builder,
    in every interleaving: it never fails, and gets either nothing or exactly what was built. *)
Theorem C42_concurrent_reader : forall lp b s do_save auto_lock sched t m1 m2,
  proper_labels b -> clean_labels b -> ~ locked s (lp_path lp) ->
  interleave sched s (build lp do_save auto_lock (Ok b)) (load_if_ready lp (has_split b)) = (t, m1, m2) ->
  (forall e, m2 <> Raise e) /\ (forall r, m2 = Ret r -> r = None \/ r = Some (read_back_built b)) /\
  exec t m1 = exec s (build lp do_save auto_lock (Ok b)).
Proof.
  intros lp b s do_save auto_lock sched t m1 m2 Hp Hc Hu E.
  pose proof (interleave_reader lp b Hp sched s (build lp do_save auto_lock (Ok b)) (build_settles lp b do_save auto_lock s Hp Hu)) as H.
  rewrite E in H. destruct H as ((H1 & H2) & H3). split; [assumption|]. split; [|assumption].
  intros r Er. rewrite <- (loaded_built_read_back b Hp Hc). auto.
Qed.

(** *** two builders at the same time: the check and the writes are not atomic *)
Definition tiny (x : Z) : built := Plain (DMat "dataset" (SMat CSR 1 [[x]]) (SMat CSR 1 [[x]]) [[114]] [[97]] [[98]] false).
Definition a_definition : lockable := exds_definition ["exds"] "d".
Definition disk : fs := [(["exds"], Dir)].
Example C42_example_hypotheses : proper_labels (tiny 1) /\ clean_labels (tiny 1) /\ ~ locked disk (lp_path a_definition) /\
  (forall label, In label (part_labels (has_split (tiny 1))) -> writable disk (lp_path a_definition ++ [label])).
Proof.
  split; [reflexivity|]. split; [|split].
  - intros d [<-|[]]. split; [|split]; apply labels_roundtrip; vm_compute; reflexivity.
  - intros (name & _ & H). apply H. reflexivity.
  - intros label _. split.
    + intros q c _. cbn [lookup assoc disk]. destruct (path_eqb q ["exds"]); discriminate.
    + intros q Hq. apply matrix_files_form in Hq. destruct Hq as (n & ->). cbn [lookup assoc disk].
      destruct (path_eqb_spec ((lp_path a_definition ++ [label]) ++ [n]) ["exds"]); [discriminate|discriminate].
Qed.
(** a run, and the state it leaves *)
Example C42_example_build :
  let t := fst (exec disk (build a_definition true true (Ok (tiny 1)))) in
  exec t (load_if_ready a_definition false) = (t, Ok (Some (read_back_built (tiny 1)))).
Proof. vm_compute. reflexivity. Qed.
(** the second builder passes the lock check; the first one completes and locks; the second one
    opens X.mtx for writing and stops *)
Definition race : list bool := repeat false 3 ++ repeat true 40 ++ repeat false 4.
Theorem C42_two_builders_refuted : exists sched,
  let '(t, m1, m2) := interleave sched disk (build a_definition true true (Ok (tiny 1))) (build a_definition true true (Ok (tiny 2))) in
  m1 = Ret tt /\ locked t (lp_path a_definition) /\ file_is t (lp_path a_definition ++ ["dataset"; "X.mtx"]) Partial /\
  exec t (exds_ready a_definition) = (t, Ok true) /\ snd (exec t (load_if_ready a_definition false)) = Err ValueError.
Proof.
  exists race. vm_compute. split; [reflexivity|]. split; [|auto].
  exists "locked_exds". split; [reflexivity|discriminate].
Qed.
(** and when it goes on, the locked folder ends up with the second dataset, part by part *)
Theorem C42_two_builders_overwrite : exists sched1 sched2,
  let '(t, m1, m2) := interleave sched1 disk (build a_definition true true (Ok (tiny 1))) (build a_definition true true (Ok (tiny 2))) in
  snd (exec t (load_if_ready a_definition false)) = Ok (Some (read_back_built (tiny 1))) /\
  let '(u, m1', m2') := interleave sched2 t m1 m2 in
  snd (exec u (load_if_ready a_definition false)) = Ok (Some (read_back_built (tiny 2))).
Proof. exists (repeat false 3 ++ repeat true 40), (repeat false 40). vm_compute. auto. Qed.

(** another process locks the folder after the full dataset was written and before the two parts are:
    saving stops with NameError instead of the exception meant for it, and the folder counts as ready
    although two thirds of the dataset are missing *)
Definition tiny_split : built :=
  let m label x := DMat label (SMat CSR 1 [[x]]) (SMat CSR 1 [[x]]) [[114]] [[97]] [[98]] true in
  WithSplit (m "dataset" 1%Z) (m "dataset_train" 2%Z) (m "dataset_test" 3%Z).
Theorem C42_lock_while_saving_a_split_refuted : exists sched,
  let '(t, m1, m2) := interleave sched disk (save_built a_definition tiny_split) (lock_folder a_definition "") in
  m1 = Raise NameErr /\ m2 = Ret tt /\ exec t (exds_ready a_definition) = (t, Ok true) /\
  snd (exec t (load_if_ready a_definition true)) = Err OSErr.
Proof. exists (repeat true 14 ++ repeat false 10 ++ repeat true 40). vm_compute. repeat split. Qed.
Print Assumptions C42_lock_while_saving_a_split_refuted.
