(** A reader running at the same time as a builder. *)
From Coq Require Import String.
From Verif Require Import Base Matrix_Model Text_Model Text_Proofs FS_Model FS_Proofs Storage_Model Storage_Spec Storage_Proofs Exds_Proofs Exds_Success.
Open Scope string_scope.
Open Scope list_scope.

Lemma states_bind_eq {A B} (m : prog A) (f : A -> prog B) : forall s,
  states s (pbind m f) = match exec s m with (s', Ok a) => removelast (states s m) ++ states s' (f a) | (_, Err _) => states s m end.
Proof.
  assert (Hrl : forall (x : fs) l, l <> [] -> removelast (x :: l) = x :: removelast l) by (intros x [|y l] H; [congruence|reflexivity]).
  assert (Hne : forall C s (n : prog C), states s n <> []) by (intros C s n; destruct n; discriminate).
  induction m; intros s; cbn [pbind exec states]; try reflexivity;
    try (match goal with H : forall _ _, states _ (pbind _ _) = _ |- _ => rewrite H end;
         match goal with |- context [exec ?u ?n] => destruct (exec u n) as (s' & [a|e]) end; [rewrite Hrl by apply Hne; reflexivity|reflexivity]).
  - rewrite IHm. destruct (exec (update s p (File c)) m) as (s' & [a|e]); [rewrite Hrl by apply Hne; reflexivity|reflexivity].
  - rewrite IHm. destruct (exec (remove s p) m) as (s' & [a|e]); [rewrite Hrl by apply Hne; reflexivity|reflexivity].
Qed.

(** once [I] holds, [D] holds from then on *)
Fixpoint settles (I D : fs -> Prop) (l : list fs) : Prop :=
  match l with [] => True | t :: l' => (I t -> Forall D l) /\ settles I D l' end.
Lemma settles_app (I D : fs -> Prop) a b : Forall (fun t => ~ I t) a -> Forall D b -> settles I D (a ++ b).
Proof.
  intros Ha Hb. induction Ha as [|t a Ht Ha IH]; cbn [List.app settles].
  - induction Hb; cbn [settles]; [exact Logic.I|]. split; [intros _; constructor; assumption|assumption].
  - split; [contradiction|assumption].
Qed.
Lemma settles_never (I D : fs -> Prop) a : Forall (fun t => ~ I t) a -> settles I D a.
Proof. intros H. rewrite <- (app_nil_r a). apply settles_app; [assumption|constructor]. Qed.

Lemma removelast_incl {A} (l : list A) x : In x (removelast l) -> In x l.
Proof.
  destruct l as [|y l]; [intros []|]. intros H. rewrite (app_removelast_last y) by discriminate. apply in_or_app. left. assumption.
Qed.
Lemma build_settles lp b do_save auto_lock s : proper_labels b -> ~ locked s (lp_path lp) ->
  settles (fun t => locked t (lp_path lp)) (fun t => stored t (lp_path lp) b) (states s (build lp do_save auto_lock (Ok b))).
Proof.
  intros Hp Hu. unfold build. cbn [lift pbind]. destruct do_save.
  2: { apply settles_never. constructor; [assumption|constructor]. }
  unfold finalize_and_save. rewrite states_bind_eq.
  destruct (save_built_spec lp (finalize_built b) s (proper_finalize b Hp)) as (HI & HQ).
  assert (HU : Forall (fun t => ~ locked t (lp_path lp)) (states s (save_built lp (finalize_built b)))).
  { apply Forall_forall. intros t Ht Hl. apply Hu. apply HI in Ht. destruct Ht as (Ht & _). exact (proj1 (same_locks_locked lp s t Ht) Hl). }
  destruct (exec s (save_built lp (finalize_built b))) as (t & [[]|e]) eqn:E; cbn [fst snd] in HQ.
  2: { apply settles_never, HU. }
  destruct (HQ eq_refl) as (_ & Hs). apply (proj1 (stored_finalize lp t b)) in Hs.
  apply settles_app.
  - apply Forall_forall. intros u Hin. apply removelast_incl in Hin. rewrite Forall_forall in HU. apply HU, Hin.
  - apply Forall_forall. intros u Hin. destruct auto_lock.
    + destruct (lock_spec lp "" t) as (HL & _). apply (stored_lock_only lp t u b _ Hs (HL u Hin)).
    + destruct Hin as [<-|[]]. exact Hs.
Qed.

(** a program that only reads files whose content [D] determines, ending with [r] *)
Inductive reads {A} (D : fs -> Prop) (r : A) : prog A -> Prop :=
| reads_ret : reads D r (Ret r)
| reads_file p c k : (forall t, D t -> do_read t p = Some c) -> reads D r (k (Some c)) -> reads D r (ReadFile p k).
Lemma reads_bind {A B} D (a : A) (b : B) m f : reads D a m -> reads D b (f a) -> reads D b (pbind m f).
Proof. intros H Hf. induction H; cbn [pbind]; [assumption|]. econstructor; eassumption. Qed.
Lemma load_dm_reads lp d : reads (fun t => holds_matrix t (lp_path lp) d) (loaded (dm_label d) false d) (load_dm (dm_label d) false (lp_path lp)).
Proof.
  unfold load_dm, load_matrix, load_labels. cbn [pbind].
  change (String.append "X" ".mtx") with "X.mtx". change (String.append "Y" ".mtx") with "Y.mtx".
  repeat (eapply reads_file; [intros t (H1 & H2 & H3 & H4 & H5); apply do_read_file; eassumption|cbn [pbind]]).
  apply reads_ret.
Qed.
Lemma reads_weaken {A} (D D' : fs -> Prop) (r : A) m : (forall t, D' t -> D t) -> reads D r m -> reads D' r m.
Proof. intros H. induction 1; econstructor; eauto. Qed.
Lemma load_built_reads lp b : proper_labels b ->
  reads (fun t => stored t (lp_path lp) b) (loaded_built b) (load_built lp (has_split b)).
Proof.
  intros Hp. unfold proper_labels in Hp. unfold load_built. destruct b as [m|f tr te]; cbn [has_split parts map part_labels] in *.
  - injection Hp as L. eapply reads_bind.
    + rewrite <- L. apply (reads_weaken (fun t => holds_matrix t (lp_path lp) m)); [intros t H; apply H; left; reflexivity|]. apply load_dm_reads.
    + cbn [loaded_built]. rewrite L. apply reads_ret.
  - injection Hp as Lf Ltr Lte. eapply reads_bind.
    { rewrite <- Lf. apply (reads_weaken (fun t => holds_matrix t (lp_path lp) f)); [intros t H; apply H; left; reflexivity|]. apply load_dm_reads. }
    eapply reads_bind.
    { rewrite <- Ltr. apply (reads_weaken (fun t => holds_matrix t (lp_path lp) tr)); [intros t H; apply H; right; left; reflexivity|]. apply load_dm_reads. }
    eapply reads_bind.
    { rewrite <- Lte. apply (reads_weaken (fun t => holds_matrix t (lp_path lp) te)); [intros t H; apply H; right; right; left; reflexivity|]. apply load_dm_reads. }
    cbn [loaded_built]. rewrite Lf, Ltr, Lte. apply reads_ret.
Qed.

Lemma interleave_reads {A B} (D : fs -> Prop) (r : B) sched : forall s (m1 : prog A) m2,
  Forall D (states s m1) -> reads D r m2 ->
  let '(t, m1', m2') := interleave sched s m1 m2 in reads D r m2' /\ exec t m1' = exec s m1.
Proof.
  induction sched as [|[] sched IH]; intros s m1 m2 HD Hr; cbn [interleave]; [auto| |].
  - rewrite states_step in HD. destruct (step s m1) as [(s', m1')|] eqn:E.
    + rewrite (exec_step _ _ _ _ E). apply IH; [|assumption]. inversion HD; assumption.
    + apply IH; [|assumption]. rewrite states_step, E. assumption.
  - assert (D s) as Hs by (rewrite Forall_forall in HD; apply HD, states_first).
    inversion Hr; subst; cbn [step].
    + apply IH; assumption.
    + rewrite (H s Hs). apply IH; assumption.
Qed.

Definition glob_phase (lp : lockable) (w : bool) : prog (option built) :=
  Glob (lp_path lp) "locked_" (fun l =>
    if (match l with [] => false | _ => true end) : bool then b <~ load_built lp w ;; Ret (Some b) else Ret None).

Section Reader.
  Variable lp : lockable.
  Variable b : built.
  Hypothesis Hp : proper_labels b.
  Let I := fun t => locked t (lp_path lp).
  Let D := fun t => stored t (lp_path lp) b.
  Definition outcome (m2 : prog (option built)) : Prop :=
    (forall e, m2 <> Raise e) /\ (forall r, m2 = Ret r -> r = None \/ r = Some (loaded_built b)).
  Lemma outcome_reads m2 : reads D (Some (loaded_built b)) m2 -> outcome m2.
  Proof. intros H. inversion H; split; try discriminate. intros r' E. inversion E. auto. Qed.

  Lemma interleave_done {A} sched : forall s (m1 : prog A),
    let '(t, m1', m2') := interleave sched s m1 (Ret (@None built)) in outcome m2' /\ exec t m1' = exec s m1.
  Proof.
    induction sched as [|[] sched IH]; intros s m1; cbn [interleave].
    - split; [|reflexivity]. split; [discriminate|]. intros r E. inversion E. auto.
    - destruct (step s m1) as [(s', m1')|] eqn:E; [rewrite (exec_step _ _ _ _ E)|]; apply IH.
    - cbn [step]. apply IH.
  Qed.
  Lemma interleave_glob {A} sched : forall s (m1 : prog A) m2, settles I D (states s m1) ->
    m2 = glob_phase lp (has_split b) ->
    let '(t, m1', m2') := interleave sched s m1 m2 in outcome m2' /\ exec t m1' = exec s m1.
  Proof.
    induction sched as [|[] sched IH]; intros s m1 m2 HS E2; cbn [interleave].
    - split; [|reflexivity]. subst m2. split; discriminate.
    - rewrite states_step in HS. destruct (step s m1) as [(s', m1')|] eqn:E.
      + rewrite (exec_step _ _ _ _ E). apply IH; [apply HS|assumption].
      + apply IH; [rewrite states_step, E; exact HS|assumption].
    - subst m2. unfold glob_phase at 1. cbn [step]. destruct (names_in s (lp_path lp) "locked_") as [|x l] eqn:E; cbn iota.
      + apply interleave_done.
      + assert (Hl : locked s (lp_path lp)).
        { assert (In x (names_in s (lp_path lp) "locked_")) as Hin by (rewrite E; left; reflexivity).
          apply names_in_spec in Hin. exists x. tauto. }
        assert (HD : Forall D (states s m1)).
        { rewrite states_step in HS |- *. cbn [settles] in HS. apply HS. exact Hl. }
        assert (HR : reads D (Some (loaded_built b)) (b0 <~ load_built lp (has_split b);; Ret (Some b0))).
        { eapply reads_bind; [apply load_built_reads; assumption|apply reads_ret]. }
        pose proof (interleave_reads D _ sched s m1 _ HD HR) as H.
        destruct (interleave sched s m1 _) as ((t & m1') & m2'). destruct H as (H1 & H2). split; [apply outcome_reads; assumption|assumption].
  Qed.
  Lemma interleave_reader {A} sched : forall s (m1 : prog A), settles I D (states s m1) ->
    let '(t, m1', m2') := interleave sched s m1 (load_if_ready lp (has_split b)) in outcome m2' /\ exec t m1' = exec s m1.
  Proof.
    induction sched as [|[] sched IH]; intros s m1 HS; cbn [interleave].
    - split; [|reflexivity]. split; discriminate.
    - rewrite states_step in HS. destruct (step s m1) as [(s', m1')|] eqn:E.
      + rewrite (exec_step _ _ _ _ E). apply IH, HS.
      + apply IH. rewrite states_step, E. exact HS.
    - unfold load_if_ready at 1, exds_ready, folder_exists. cbn [pbind step].
      destruct (exists_ s (lp_path lp)).
      + apply interleave_glob; [assumption|reflexivity].
      + cbn [pbind]. apply interleave_done.
  Qed.
End Reader.
