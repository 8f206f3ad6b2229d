(** C43 (locks of experiments) and C44 (experiment runs). *)
From Coq Require Import String.
From Verif Require Import Base Matrix_Model Text_Model FS_Model FS_Proofs Split_Model Storage_Model Storage_Spec Storage_Proofs Exds_Proofs Exds_Success Experiment_Model Experiment_Proofs Run_Proofs.
Open Scope string_scope.
Open Scope list_scope.

(** the type meant by a lock_type argument: '' stands for 'experiment' *)
Definition meant (ty : string) : string := if String.eqb ty "" then "experiment" else ty.
(** the folders on the way to the locks of the subexperiment exist *)
Definition lock_folder_exists (s : fs) (e : experiment) : Prop :=
  forall q, q <> [] -> below (ex_path e ++ ["locks"; ex_sub e]) q = true -> lookup s q = Some Dir.
(** the subexperiment has a lock of some type *)
Definition has_any_lock (s : fs) (e : experiment) : Prop :=
  exists name, prefix "locked_" name = true /\ lookup s (ex_path e ++ ["locks"; ex_sub e; name]) <> None.

Lemma lock_file_eq e1 e2 ty1 ty2 : ex_path e1 = ex_path e2 -> lock_file e1 ty1 = lock_file e2 ty2 -> ex_sub e1 = ex_sub e2 /\ meant ty1 = meant ty2.
Proof.
  intros Hp E. unfold lock_file, sub_path in E. rewrite Hp, <- !app_assoc in E. apply app_inv_head in E. cbn [List.app] in E.
  injection E as E1 E2. split; [assumption|]. unfold meant. exact E2.
Qed.
Lemma is_locked_reports e ty s b : String.eqb ty "" = false -> snd (exec s (ex_is_locked e ty)) = Ok b -> (b = true <-> lookup s (lock_file e ty) <> None).
Proof.
  intros Hty E. destruct (is_locked_spec e ty s Hty) as (_ & [(b' & E' & H & _)|E']); rewrite E' in E; inversion E; subst; exact H.
Qed.

(** Locking or unlocking one lock type of one subexperiment does not change what any other lock type,
    or any other subexperiment of the same experiment, reports. *)
Theorem C43_locks_are_independent : forall e1 e2 ty1 ty2 s t r b1 b2,
  ex_path e1 = ex_path e2 -> ty2 <> "" -> (ex_sub e1 <> ex_sub e2 \/ meant ty1 <> ty2) ->
  exec s (ex_lock e1 ty1) = (t, r) \/ exec s (ex_unlock e1 ty1) = (t, r) ->
  snd (exec s (ex_is_locked e2 ty2)) = Ok b1 -> snd (exec t (ex_is_locked e2 ty2)) = Ok b2 -> b1 = b2.
Proof.
  intros e1 e2 ty1 ty2 s t r b1 b2 Hp Hty Hne E H1 H2.
  assert (Et : String.eqb ty2 "" = false) by (apply String.eqb_neq; assumption).
  apply (is_locked_reports _ _ _ _ Et) in H1, H2.
  assert (Hne' : lock_file e2 ty2 <> lock_file e1 ty1).
  { intros Eq. symmetry in Eq. apply lock_file_eq in Eq; [|assumption]. destruct Eq as (A & B). destruct Hne as [C|C]; [contradiction|].
    apply C. rewrite B. unfold meant. rewrite Et. reflexivity. }
  assert (L : length (lock_file e2 ty2) = length (ex_path e1) + 3) by (rewrite lock_file_length, Hp; reflexivity).
  assert (Hsame : lookup t (lock_file e2 ty2) = lookup s (lock_file e2 ty2)).
  { destruct E as [E|E].
    - destruct (ex_lock_spec e1 ty1 s) as (HI & _). specialize (HI _ (states_last _ _)). rewrite E in HI. cbn [fst] in HI. apply (HI _ Hne'), L.
    - destruct (ex_unlock_spec e1 ty1 s) as (HI & _). specialize (HI _ (states_last _ _)). rewrite E in HI. cbn [fst] in HI. apply (HI _ Hne'), L. }
  rewrite Hsame in H2. destruct b1, b2; intuition congruence.
Qed.

(** A lock that was set is reported, and one that was removed is not. *)
Theorem C43_lock_then_locked : forall e ty s t, exec s (ex_lock e ty) = (t, Ok tt) -> exec t (ex_is_locked e (meant ty)) = (t, Ok true).
Proof.
  intros e ty s t E. destruct (ex_lock_spec e ty s) as (_ & HQ). rewrite E in HQ. cbn [fst snd] in HQ.
  destruct HQ as [(_ & H1 & H2)|?]; [|discriminate].
  destruct (is_locked_run e (meant ty) t (type_of_nonempty ty) H2) as (b & Eb & Hb & _). rewrite Eb. do 2 f_equal. apply Hb.
  unfold has_lock in *. change (meant ty) with (type_of ty). rewrite lock_file_type. exact H1.
Qed.
Theorem C43_unlock_then_unlocked : forall e ty s t, exec s (ex_unlock e ty) = (t, Ok tt) -> exec t (ex_is_locked e (meant ty)) = (t, Ok false).
Proof.
  intros e ty s t E. destruct (ex_unlock_spec e ty s) as (_ & HQ). rewrite E in HQ. cbn [fst snd] in HQ.
  destruct HQ as [(_ & H1 & H2)|?]; [|discriminate].
  destruct (is_locked_run e (meant ty) t (type_of_nonempty ty) H2) as (b & Eb & Hb & _). rewrite Eb. do 2 f_equal.
  destruct b; [|reflexivity]. exfalso. apply H1. unfold has_lock in *. rewrite <- (lock_file_type e ty). apply Hb. reflexivity.
Qed.

(** A subexperiment with a lock of any type cannot be deleted through its own definition: the calls
    raise and the disk stays as it was, at every moment. *)
Theorem C43_locked_is_protected : forall e s name, lock_folder_exists s e -> has_any_lock s e ->
  snd (exec s (ex_delete_folder e)) = Err LockedErr /\ (forall t, In t (states s (ex_delete_folder e)) -> t = s) /\
  snd (exec s (ex_delete_subfolder e name)) = Err LockedErr /\ (forall t, In t (states s (ex_delete_subfolder e name)) -> t = s).
Proof.
  intros e s name Hf Hl. destruct (is_locked_any_run e s Hf) as (b & E & Hb & Hs).
  assert (b = true) as ->.
  { apply Hb. destruct Hl as (n & H1 & H2). exists n. split; [assumption|]. unfold sub_path. rewrite <- app_assoc. exact H2. }
  assert (D1 : forall (f : prog unit), snd (exec s (locked <~ ex_is_locked e "";; if locked : bool then Raise LockedErr else f)) = Err LockedErr /\
             (forall t, In t (states s (locked <~ ex_is_locked e "";; if locked : bool then Raise LockedErr else f)) -> t = s)).
  { intros f. split.
    - rewrite exec_bind, E. reflexivity.
    - intros t Ht. apply states_bind in Ht. destruct Ht as [Ht|(x & Ex & Ht)]; [auto|]. rewrite E in Ex, Ht. cbn [fst snd] in Ex, Ht.
      inversion Ex; subst x. destruct Ht as [<-|[]]. reflexivity. }
  unfold ex_delete_folder, ex_delete_subfolder. cbn [exec states].
  destruct (D1 (rmtree (ex_path e))) as (A1 & A2).
  destruct (D1 (Exists (sub_path e name) (fun ex => if negb ex then Raise LockedErr else rmtree (ex_path e ++ [name])))) as (B1 & B2).
  split; [destruct (exists_ s (ex_path e)); [exact A1|reflexivity]|]. split; [|split; [exact B1|exact B2]].
  intros t [<-|Ht]; [reflexivity|]. destruct (exists_ s (ex_path e)); [apply A2, Ht|]. destruct Ht as [<-|[]]. reflexivity.
Qed.

(** But another subexperiment of the same experiment is not protected: deleting the folder of an
    unlocked subexperiment removes everything, locks included; delete_subfolder removes the
    subfolder's data of all subexperiments. *)
Theorem C43_sibling_not_protected : forall e1 e2 name s t,
  ex_path e1 = ex_path e2 ->
  (exec s (ex_delete_folder e1) = (t, Ok tt) ->
     forall q, below q (ex_path e2) = true -> lookup t q = None) /\
  (exec s (ex_delete_subfolder e1 name) = (t, Ok tt) ->
     forall q, below q (ex_path e2 ++ [name]) = true -> lookup t q = None).
Proof.
  intros e1 e2 name s t Hp. split.
  - unfold ex_delete_folder. cbn [exec]. destruct (exists_ s (ex_path e1)); cbn [negb]; [|cbn [exec]; congruence].
    rewrite exec_bind. destruct (exec s (ex_is_locked e1 "")) as (u & [[]|er]); cbn [exec]; try congruence.
    destruct (rmtree_spec (ex_path e1) u) as (_ & _ & H). intros E. rewrite E in H. cbn [fst] in H. rewrite <- Hp. exact H.
  - unfold ex_delete_subfolder. rewrite exec_bind. destruct (exec s (ex_is_locked e1 "")) as (u & [[]|er]); cbn [exec]; try congruence.
    destruct (exists_ u (sub_path e1 name)); cbn [negb]; [|cbn [exec]; congruence].
    destruct (rmtree_spec (ex_path e1 ++ [name]) u) as (_ & _ & H). intros E. rewrite E in H. cbn [fst] in H. rewrite <- Hp. exact H.
Qed.

(** two subexperiments; "b" is locked and has a datapoint *)
Definition sub_a : experiment := Experiment ["experiments"; "x"] "a".
Definition sub_b : experiment := Experiment ["experiments"; "x"] "b".
Definition two_subs : fs := fst (exec [] (ex_lock sub_b "experiment" ;;; save_datapoint sub_b "run0" [1; 2] ;;; subfolder sub_a "locks")).
Example C43_example_locked :
  exec two_subs (ex_is_locked sub_b "experiment") = (two_subs, Ok true) /\
  exec two_subs (ex_is_locked sub_a "") = (two_subs, Ok false) /\
  file_is two_subs (datapoint_file sub_b "run0") (CDatapoint "run0" [1; 2]) /\
  has_any_lock two_subs sub_b /\ lock_folder_exists two_subs sub_b /\
  exec two_subs (ex_delete_folder sub_b) = (two_subs, Err LockedErr).
Proof.
  split; [vm_compute; reflexivity|]. split; [vm_compute; reflexivity|]. split; [vm_compute; reflexivity|].
  split; [exists "locked_experiment"; split; [reflexivity|vm_compute; discriminate]|]. split; [|vm_compute; reflexivity].
  intros q Hq Hb. assert (Hin : In q (prefixes ["experiments"; "x"; "locks"; "b"])) by (apply prefixes_spec; auto).
  cbn [prefixes map In] in Hin. destruct Hin as [<-|[<-|[<-|[<-|[]]]]]; vm_compute; reflexivity.
Qed.
Theorem C43_sibling_refuted :
  let t := fst (exec two_subs (ex_delete_folder sub_a)) in
  snd (exec two_subs (ex_delete_folder sub_a)) = Ok tt /\
  snd (exec t (ex_is_locked sub_b "experiment")) = Ok false /\ lookup t (datapoint_file sub_b "run0") = None.
Proof. vm_compute. auto. Qed.

(** * C44 *)
(** the runs that are not skipped *)
Definition to_do (l : list alg_run) : list alg_run := filter (fun a => negb (ar_skip a)) l.
(** the dataset's folder and the experiment's folder are not inside one another *)
Definition dataset_elsewhere (e : experiment) (x : option exds_use) : Prop :=
  match x with None => True | Some u => below (lp_path (eu_folder u)) (ex_path e) = false /\ below (ex_path e) (lp_path (eu_folder u)) = false end.
Definition experiment_locked (s : fs) (e : experiment) : Prop := lookup s (lock_file e "experiment") <> None.
(** the datapoint of a run is on the disk, with its result *)
Definition datapoint_saved (s : fs) (e : experiment) (a : alg_run) : Prop :=
  exists mb, ar_outcome a = Ok mb /\ file_is s (datapoint_file e (ar_ID a)) (CDatapoint (ar_ID a) mb).
Definition distinct_IDs (l : list alg_run) : Prop := NoDup (map ar_ID (to_do l)).

Lemma done_saved e o t a : save_datapoints o = true -> done e o t a -> datapoint_saved t e a.
Proof. intros Hs (mb & E & H). exists mb. split; [assumption|]. apply H, Hs. Qed.

(** A locked experiment is not run: no algorithm run is started and no datapoint, log or lock of the
    experiment changes. *)
Theorem C44_locked_refused : forall e o x l s, dataset_elsewhere e x -> experiment_locked s e ->
  exists t er, exec s (run_experiment e o x l) = (t, Ok ([], Err er)) /\ (er = LockedErr \/ er = OSErr) /\
    (forall q, below q (ex_path e) = true -> length q = length (ex_path e) + 3 -> lookup t q = lookup s q).
Proof.
  intros e o x l s Hx Hl. destruct (run_experiment_spec e o x l s Hx) as (_ & started & out & E & H).
  exists (fst (exec s (run_experiment e o x l))). destruct out as [[]|er].
  - destruct H as (H & _). unfold experiment_locked in Hl. unfold the_lock in H. congruence.
  - exists er. destruct H as [(H1 & H2 & H3 & H4)|[(H1 & _)|(H1 & _)]]; [|unfold experiment_locked in Hl; unfold the_lock in H1; congruence|unfold experiment_locked in Hl; unfold the_lock in H1; congruence].
    subst started. rewrite <- E. rewrite <- surjective_pairing. split; [reflexivity|]. split; [apply H4, Hl|exact H3].
Qed.

(** A run that completes has started each run that is not skipped exactly once, in the order of the
    parameters; all of them succeeded; their datapoints are saved; and the lock is set if and only if
    the definition asks for it. *)
Theorem C44_completed : forall e o x l s t started, dataset_elsewhere e x ->
  exec s (run_experiment e o x l) = (t, Ok (started, Ok tt)) ->
  ~ experiment_locked s e /\ started = map ar_ID (to_do l) /\
  (forall a, In a (to_do l) -> exists mb, ar_outcome a = Ok mb) /\
  (distinct_IDs l -> save_datapoints o = true -> forall a, In a (to_do l) -> datapoint_saved t e a) /\
  (experiment_locked t e <-> lock_after o = true).
Proof.
  intros e o x l s t started Hx E. destruct (run_experiment_spec e o x l s Hx) as (_ & started' & out & E' & H).
  rewrite E in E', H. cbn [snd fst] in E', H. inversion E'; subst started' out. destruct H as (H1 & H2 & H3 & H4 & H5 & H6).
  split; [intros Hl; apply Hl; exact H1|]. split; [exact H2|]. split; [exact H3|]. split.
  - intros HN Hs a Ha. apply (done_saved e o); [assumption|]. apply H4; assumption.
  - destruct (lock_after o); split; try discriminate.
    + reflexivity.
    + intros _. apply H5. reflexivity.
    + intros Hl. exfalso. apply Hl. apply H6. reflexivity.
Qed.

(** At every moment of a run (and so wherever it stops): if the experiment was not locked before and
    is locked now, all runs have succeeded and all their datapoints are saved. *)
Theorem C44_lock_only_after_all : forall e o x l s t, dataset_elsewhere e x ->
  In t (states s (run_experiment e o x l)) -> ~ experiment_locked s e -> experiment_locked t e ->
  lock_after o = true /\ (forall a, In a (to_do l) -> exists mb, ar_outcome a = Ok mb) /\
  (distinct_IDs l -> save_datapoints o = true -> forall a, In a (to_do l) -> datapoint_saved t e a).
Proof.
  intros e o x l s t Hx Ht Hu Hl. destruct (run_experiment_spec e o x l s Hx) as (HI & _). destruct (HI t Ht) as (_ & H).
  unfold experiment_locked, the_lock in *. destruct H as [H|(H1 & H2 & H3 & H4)]; [exfalso; apply Hu; rewrite <- H; exact Hl|].
  split; [assumption|]. split; [exact H3|]. intros HN Hs a Ha. apply (done_saved e o); [assumption|]. apply H4; assumption.
Qed.

(** When a run (or saving) raises, the experiment is left unlocked, no later run is started, and the
    datapoints of all runs before the failing one are saved. *)
Theorem C44_failed : forall e o x l s t started er, dataset_elsewhere e x -> ~ experiment_locked s e ->
  exec s (run_experiment e o x l) = (t, Ok (started, Err er)) ->
  (started = [] /\ ~ experiment_locked t e) \/
  (exists l1 a l2, to_do l = l1 ++ a :: l2 /\ (started = map ar_ID l1 \/ started = map ar_ID (l1 ++ [a])) /\ ~ experiment_locked t e /\
     (distinct_IDs l -> save_datapoints o = true -> forall b, In b l1 -> datapoint_saved t e b)) \/
  (started = map ar_ID (to_do l) /\ er = OSErr /\
     (distinct_IDs l -> save_datapoints o = true -> forall b, In b (to_do l) -> datapoint_saved t e b)).
Proof.
  intros e o x l s t started er Hx Hu E. destruct (run_experiment_spec e o x l s Hx) as (_ & started' & out & E' & H).
  rewrite E in E', H. cbn [snd fst] in E', H. inversion E'; subst started' out.
  destruct H as [(H1 & H2 & _)|[(H1 & H2 & l1 & a & l2 & H3 & H4 & H5)|(H1 & H2 & H3 & H4 & H5)]].
  - left. split; [assumption|]. unfold experiment_locked, the_lock in *. rewrite H2. exact Hu.
  - right. left. exists l1, a, l2. split; [exact H3|]. split; [exact H4|]. split; [intros Hl; apply Hl; exact H2|].
    intros HN Hs b Hb. apply (done_saved e o); [assumption|]. apply H5; assumption.
  - right. right. split; [exact H2|]. split; [exact H3|]. intros HN Hs b Hb. apply (done_saved e o); [assumption|]. apply H5; assumption.
Qed.

(** Once completed with locking, running again is refused and leaves the disk as it is. *)
Theorem C44_at_most_once : forall e o x l s t started o' x' l', dataset_elsewhere e x -> lock_after o = true ->
  exec s (run_experiment e o x l) = (t, Ok (started, Ok tt)) ->
  exec t (run_experiment e o' x' l') = (t, Ok ([], Err LockedErr)).
Proof.
  intros e o x l s t started o' x' l' Hx Hlk E. destruct (run_experiment_spec e o x l s Hx) as (_ & started' & out & E' & H).
  rewrite E in E', H. cbn [snd fst] in E', H. inversion E'; subst started' out. destruct H as (_ & _ & _ & _ & H5 & _).
  destruct (H5 Hlk) as (L1 & L2).
  assert (Hm : exec t (mkdirs (ex_path e)) = (t, Ok tt)).
  { apply mkdirs_noop. intros q Hq Hb. apply L2; [assumption|]. eapply below_trans; [apply below_app|exact Hb]. }
  destruct (is_locked_run e "experiment" t eq_refl L2) as (b & Eb & Hb & _).
  assert (b = true) as -> by (apply Hb; exact L1).
  unfold run_experiment. rewrite exec_bind, attempt_exec, exec_bind, Hm, exec_bind, Eb. reflexivity.
Qed.

(** Only the datapoints and logs of the runs and the lock change in the experiment's folder. *)
Theorem C44_touches_only : forall e o x l s t q, dataset_elsewhere e x -> In t (states s (run_experiment e o x l)) ->
  below q (ex_path e) = true -> length q = length (ex_path e) + 3 -> q <> lock_file e "experiment" ->
  (forall a, In a (to_do l) -> q <> datapoint_file e (ar_ID a) /\ q <> log_file e (ar_ID a)) -> lookup t q = lookup s q.
Proof.
  intros e o x l s t q Hx Ht Hq L Nq Hne. destruct (run_experiment_spec e o x l s Hx) as (HI & _). destruct (HI t Ht) as (H & _).
  apply H; try assumption. intros id Hid. apply in_map_iff in Hid. destruct Hid as (a & <- & Ha). apply Hne, Ha.
Qed.

(** examples: three runs of which one is skipped; the last one raising; two with the same ID *)
Definition good (id : string) (mb : list nat) : alg_run := AlgRun id false (Ok tt) (Ok mb) [].
Definition three : list alg_run := [good "run0" [3]; AlgRun "run1" true (Ok tt) (Ok []) []; good "run2" [1; 2]].
Definition all_on : run_options := RunOptions true true true.
Example C44_example :
  snd (exec [] (run_experiment sub_a all_on None three)) = Ok (["run0"; "run2"], Ok tt) /\ distinct_IDs three /\ dataset_elsewhere sub_a None.
Proof. split; [vm_compute; reflexivity|]. split; [|exact Logic.I]. repeat constructor; cbn; intuition discriminate. Qed.
Example C44_example_failed :
  let l := [good "run0" [3]; AlgRun "run1" false (Ok tt) (Err InsufficientSamples) []; good "run2" [1; 2]] in
  let t := fst (exec [] (run_experiment sub_a all_on None l)) in
  snd (exec [] (run_experiment sub_a all_on None l)) = Ok (["run0"; "run1"], Err InsufficientSamples) /\
  ~ experiment_locked t sub_a /\ file_is t (datapoint_file sub_a "run0") (CDatapoint "run0" [3]).
Proof. split; [vm_compute; reflexivity|]. split; [intros H; apply H; vm_compute; reflexivity|vm_compute; reflexivity]. Qed.
(** with equal IDs the second datapoint replaces the first *)
Theorem C44_equal_IDs_overwrite :
  let l := [good "run0" [3]; good "run0" [4]] in
  let t := fst (exec [] (run_experiment sub_a all_on None l)) in
  snd (exec [] (run_experiment sub_a all_on None l)) = Ok (["run0"; "run0"], Ok tt) /\
  file_is t (datapoint_file sub_a "run0") (CDatapoint "run0" [4]).
Proof. vm_compute. auto. Qed.
(** two processes started at the same time both run everything: the check is not atomic *)
Theorem C44_two_processes_refuted : exists sched,
  let '(t, m1, m2) := interleave sched [] (run_experiment sub_a all_on None three) (run_experiment sub_a all_on None three) in
  m1 = Ret (["run0"; "run2"], Ok tt) /\ m2 = Ret (["run0"; "run2"], Ok tt) /\ experiment_locked t sub_a.
Proof.
  exists (repeat true 20 ++ repeat false 20 ++ repeat true 100 ++ repeat false 100). vm_compute.
  split; [reflexivity|]. split; [reflexivity|discriminate].
Qed.
