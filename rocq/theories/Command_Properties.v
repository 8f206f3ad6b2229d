(** C60: the command line (paths, exp-def, exds-def, exds, exp, parameters, datapoints). *)
From Coq Require Import String.
From Verif Require Import Base Matrix_Model Text_Model FS_Model FS_Proofs Split_Model Storage_Model Storage_Spec Storage_Proofs Exds_Proofs Exds_Success Exds_Properties
  Experiment_Model Experiment_Proofs Run_Proofs Experiment_Properties Select_Model Command_Model.
Open Scope string_scope.
Open Scope list_scope.
Open Scope nat_scope.

(** ** Specification *)
(** the commands there are *)
Definition commands : list (string * string) :=
  [("paths", "show"); ("exp-def", "show"); ("exds-def", "show");
   ("exds", "show"); ("exds", "build"); ("exds", "lock"); ("exds", "unlock"); ("exds", "delete");
   ("exp", "show"); ("exp", "run"); ("exp", "lock"); ("exp", "unlock"); ("exp", "delete");
   ("parameters", "list"); ("datapoints", "list")].
(** those that only show something; those that do not touch the disk at all *)
Definition looking : list (string * string) :=
  [("paths", "show"); ("exp-def", "show"); ("exds-def", "show"); ("exds", "show"); ("exp", "show"); ("parameters", "list"); ("datapoints", "list")].
Definition looking_only : list (string * string) :=
  [("paths", "show"); ("exds-def", "show"); ("exds", "show"); ("exp", "show"); ("parameters", "list")].
(** object and verb of a command line *)
Definition asks (a : arguments) : string * string := (a_object a, match a_verb a with Some v => v | None => "" end).

(** ** Lemmas about programs that do not raise *)
Definition answers {A} (m : prog A) : Prop := forall s, exists x, snd (exec s m) = Ok x.
Lemma answers_ret {A} (a : A) : answers (Ret a). Proof. intros s. eexists. reflexivity. Qed.
Lemma answers_attempt {A} (m : prog A) : answers (attempt m). Proof. intros s. rewrite attempt_exec. eexists. reflexivity. Qed.
Lemma answers_bind {A B} (m : prog A) (f : A -> prog B) : answers m -> (forall a, answers (f a)) -> answers (pbind m f).
Proof. intros H1 H2 s. rewrite exec_bind. destruct (H1 s) as (x & E). destruct (exec s m) as (t & r). cbn [snd] in E. subst r. apply H2. Qed.
Lemma answers_read {A} p (k : option content -> prog A) : (forall c, answers (k c)) -> answers (ReadFile p k). Proof. intros H s. cbn [exec]. apply H. Qed.
Lemma answers_exists {A} p (k : bool -> prog A) : (forall c, answers (k c)) -> answers (Exists p k). Proof. intros H s. cbn [exec]. apply H. Qed.
Lemma answers_put {A} p c (k : prog A) : answers k -> answers (Put p c k). Proof. intros H s. cbn [exec]. apply H. Qed.

Lemma answers_run_all e o l : answers (run_all e o l).
Proof.
  induction l as [|a l IH]; cbn [run_all]; [apply answers_ret|]. destruct (ar_skip a); [exact IH|]. apply answers_bind.
  - unfold run_algorithm. apply answers_bind; [apply answers_attempt|]. intros [u|er]; [|apply answers_ret]. apply answers_bind.
    + unfold close_log. destruct (log_to_file o); [|apply answers_ret]. apply answers_put, answers_ret.
    + intros _. destruct (ar_outcome a); [|apply answers_ret]. destruct (save_datapoints o); [|apply answers_ret].
      apply answers_bind; [apply answers_attempt|intros r; apply answers_ret].
  - intros (ids & [u|er]); [|apply answers_ret]. apply answers_bind; [exact IH|intros r; apply answers_ret].
Qed.
Lemma answers_run e o x l : answers (run_experiment e o x l).
Proof.
  unfold run_experiment. apply answers_bind; [apply answers_attempt|]. intros [u|er]; [|apply answers_ret].
  apply answers_bind; [apply answers_run_all|]. intros (ids & [u'|er]); [|apply answers_ret]. destruct (lock_after o); [|apply answers_ret].
  apply answers_bind; [apply answers_attempt|intros r; apply answers_ret].
Qed.
Lemma answers_silent m : answers (silent m). Proof. apply answers_bind; [apply answers_attempt|intros r; apply answers_ret]. Qed.
Lemma answers_printing m : answers (printing m). Proof. apply answers_bind; [apply answers_attempt|intros [l|er]; apply answers_ret]. Qed.
Lemma answers_exp_run su a : answers (command_exp_run su a).
Proof. unfold command_exp_run. destruct (get_parameters_by_index _ _); [|apply answers_ret]. apply answers_bind; [apply answers_run|intros r; apply answers_ret]. Qed.
Lemma answers_parameters su a : answers (command_parameters_list su a).
Proof. unfold command_parameters_list. destruct (get_parameters_by_index _ _) as [l|]; [|apply answers_ret]. destruct (list_parameters (a_key a) l) as (out & [u|er]); apply answers_ret. Qed.
Lemma answers_list_datapoints e key l : answers (list_datapoints e key l).
Proof.
  induction l as [|en l IH]; cbn [list_datapoints]; [apply answers_ret|]. apply answers_read. intros c. apply answers_exists. intros ex.
  match goal with |- answers (match ?x with _ => _ end) => destruct x as [body|er] end; [|apply answers_ret].
  destruct (en_get en "index"); [|apply answers_ret]. apply answers_bind; [exact IH|intros r; apply answers_ret].
Qed.
Lemma answers_datapoints su a : answers (command_datapoints_list su a).
Proof.
  unfold command_datapoints_list. destruct (get_parameters_by_index _ _) as [l|]; [|apply answers_ret].
  apply answers_bind; [apply answers_attempt|]. intros [f|er]; [|apply answers_ret].
  apply answers_bind; [apply answers_list_datapoints|]. intros (out & [u|er]); apply answers_ret.
Qed.
Lemma answers_with su f : (forall u, answers (f u)) -> answers (with_exds su f).
Proof. intros H. unfold with_exds. destruct (su_exds su); [apply H|apply answers_ret]. Qed.

(** the command behind an object and a verb *)
Definition run_one (c : command) : prog (list item * res bool) :=
  r <~ c ;; Ret (fst r, match snd r with Ok _ => Ok true | Err e => Err e end).
Lemma run_one_exec c s : exec s (run_one c) = match exec s c with (t, Ok (out, Ok _)) => (t, Ok (out, Ok true)) | (t, Ok (out, Err e)) => (t, Ok (out, Err e)) | (t, Err e) => (t, Err e) end.
Proof. unfold run_one. rewrite exec_bind. destruct (exec s c) as (t & [(out & [u|e])|e]); reflexivity. Qed.
Lemma run_one_states c s t : In t (states s (run_one c)) -> In t (states s c).
Proof.
  intros H. apply states_bind in H. destruct H as [H|(x & _ & H)]; [exact H|]. destruct H as [<-|[]]. apply states_last.
Qed.

Definition behind (su : setup) (a : arguments) : option command :=
  assoc (fun x y => String.eqb (fst x) (fst y) && String.eqb (snd x) (snd y)) (asks a)
   [("paths", "show", Ret ([ShowPaths], Ok tt)); ("exp-def", "show", command_exp_def_show su); ("exds-def", "show", with_exds su command_exds_def_show);
    ("exds", "show", with_exds su command_exds_show); ("exds", "build", with_exds su command_exds_build);
    ("exds", "lock", with_exds su (fun u => command_exds_lock u a)); ("exds", "unlock", with_exds su (fun u => command_exds_unlock u a));
    ("exds", "delete", with_exds su command_exds_delete);
    ("exp", "show", Ret ([NotImplementedYet], Ok tt)); ("exp", "run", command_exp_run su a); ("exp", "lock", command_exp_lock su a);
    ("exp", "unlock", command_exp_unlock su a); ("exp", "delete", command_exp_delete su);
    ("parameters", "list", command_parameters_list su a); ("datapoints", "list", command_datapoints_list su a)].
Lemma handle_behind su a : handle_command su a = match behind su a with Some c => run_one c | None => Ret ([], Ok false) end.
Proof.
  unfold handle_command, behind, asks, run_one. destruct a as [o v i ty k]. cbn [a_object a_verb].
  generalize (match v with Some v' => v' | None => "" end). intros w. cbn [assoc fst snd].
  destruct (String.eqb_spec o "paths") as [->|N1]; [cbn [String.eqb Ascii.eqb Bool.eqb andb]; destruct (String.eqb w "show"); reflexivity|].
  destruct (String.eqb_spec o "exp-def") as [->|N2]; [cbn [String.eqb Ascii.eqb Bool.eqb andb]; destruct (String.eqb w "show"); reflexivity|].
  destruct (String.eqb_spec o "exds-def") as [->|N3]; [cbn [String.eqb Ascii.eqb Bool.eqb andb]; destruct (String.eqb w "show"); reflexivity|].
  destruct (String.eqb_spec o "exds") as [->|N4].
  { cbn [String.eqb Ascii.eqb Bool.eqb andb]. destruct (String.eqb w "show"); [reflexivity|]. destruct (String.eqb w "build"); [reflexivity|].
    destruct (String.eqb w "lock"); [reflexivity|]. destruct (String.eqb w "unlock"); [reflexivity|]. destruct (String.eqb w "delete"); reflexivity. }
  destruct (String.eqb_spec o "exp") as [->|N5].
  { cbn [String.eqb Ascii.eqb Bool.eqb andb]. destruct (String.eqb w "show"); [reflexivity|]. destruct (String.eqb w "run"); [reflexivity|].
    destruct (String.eqb w "lock"); [reflexivity|]. destruct (String.eqb w "unlock"); [reflexivity|]. destruct (String.eqb w "delete"); reflexivity. }
  destruct (String.eqb_spec o "parameters") as [->|N6]; [cbn [String.eqb Ascii.eqb Bool.eqb andb]; destruct (String.eqb w "list"); reflexivity|].
  destruct (String.eqb_spec o "datapoints") as [->|N7]; [cbn [String.eqb Ascii.eqb Bool.eqb andb]; destruct (String.eqb w "list"); reflexivity|].
  reflexivity.
Qed.

Definition same_command (x y : string * string) : bool := String.eqb (fst x) (fst y) && String.eqb (snd x) (snd y).
Lemma same_command_eq x y : same_command x y = true -> x = y.
Proof. unfold same_command. destruct x, y. cbn [fst snd]. intros H. apply andb_prop in H. destruct H as (H1 & H2). apply String.eqb_eq in H1, H2. subst. reflexivity. Qed.
Lemma assoc_command {V} k (d : list (string * string * V)) v : assoc same_command k d = Some v -> In (k, v) d.
Proof.
  induction d as [|(k' & v') d IH]; cbn [assoc]; [discriminate|]. destruct (same_command k k') eqn:E; [|auto with datatypes].
  intros [= ->]. apply same_command_eq in E. subst. left. reflexivity.
Qed.
Lemma behind_none su a : ~ In (asks a) commands -> behind su a = None.
Proof.
  intros H. destruct (behind su a) eqn:E; [|reflexivity]. exfalso. apply H. apply assoc_command in E.
  apply (in_map fst) in E. exact E.
Qed.
Lemma behind_some su a : In (asks a) commands -> exists c, behind su a = Some c.
Proof.
  unfold behind, commands. destruct (asks a) as (o & v). cbn [assoc fst snd In].
  intros H. repeat (destruct H as [H|H]; [injection H as <- <-; cbn [String.eqb Ascii.eqb Bool.eqb andb]; eexists; reflexivity|]). contradiction.
Qed.
Lemma behind_in su a c : behind su a = Some c -> In (asks a, c) [("paths", "show", Ret ([ShowPaths], Ok tt)); ("exp-def", "show", command_exp_def_show su); ("exds-def", "show", with_exds su command_exds_def_show);
    ("exds", "show", with_exds su command_exds_show); ("exds", "build", with_exds su command_exds_build);
    ("exds", "lock", with_exds su (fun u => command_exds_lock u a)); ("exds", "unlock", with_exds su (fun u => command_exds_unlock u a));
    ("exds", "delete", with_exds su command_exds_delete);
    ("exp", "show", Ret ([NotImplementedYet], Ok tt)); ("exp", "run", command_exp_run su a); ("exp", "lock", command_exp_lock su a);
    ("exp", "unlock", command_exp_unlock su a); ("exp", "delete", command_exp_delete su);
    ("parameters", "list", command_parameters_list su a); ("datapoints", "list", command_datapoints_list su a)].
Proof. apply assoc_command. Qed.
Lemma behind_answers su a c : behind su a = Some c -> answers c.
Proof.
  intros H. apply behind_in in H. cbn [In] in H.
  repeat (destruct H as [H|H]; [apply (f_equal snd) in H; cbn [snd] in H; subst c|]); [..|contradiction];
    try (apply answers_with; intros u); first [apply answers_ret|apply answers_printing|apply answers_silent|apply answers_exp_run|apply answers_parameters|apply answers_datapoints].
Qed.

(** ** C60, part 1: a command line is either one of the commands, which then ends by returning True or
    by raising, or it does nothing and returns False. *)
Theorem C60_dispatch : forall su a s,
  (In (asks a) commands -> exists t out r, exec s (handle_command su a) = (t, Ok (out, r)) /\ r <> Ok false) /\
  (~ In (asks a) commands -> exec s (handle_command su a) = (s, Ok ([], Ok false))).
Proof.
  intros su a s. rewrite handle_behind. split; intros H.
  - destruct (behind_some su a H) as (c & E). rewrite E, run_one_exec. destruct (behind_answers su a c E s) as ((out & r) & Ex).
    destruct (exec s c) as (t & x). cbn [snd] in Ex. subst x. destruct r as [u|er]; eexists _, _, _; (split; [reflexivity|discriminate]).
  - rewrite (behind_none su a H). reflexivity.
Qed.

(** ** C60, part 2: looking changes no file. *)
Lemma printing_states m s t : In t (states s (printing m)) -> In t (states s m).
Proof.
  intros H. unfold printing in H. apply states_bind in H. rewrite attempt_states, attempt_exec in H. destruct H as [H|(x & _ & H)]; [exact H|].
  cbn [fst] in H. destruct x as [l|er]; cbn [states In] in H; destruct H as [<-|[]]; apply states_last.
Qed.
Lemma exds_def_show_states u s t : In t (states s (command_exds_def_show u)) -> t = s.
Proof.
  intros H. apply printing_states in H. cbn [states In] in H. destruct H as [H|H]; [auto|].
  apply states_bind in H. destruct H as [H|(r & _ & H)]; [apply exds_ready_states in H; exact H|].
  rewrite (exds_ready_states _ _ _ (states_last _ _)) in H. unfold folder_exists in H. cbn [pbind states In] in H. intuition auto.
Qed.
Lemma exds_show_states u s t : In t (states s (command_exds_show u)) -> t = s.
Proof.
  intros H. apply printing_states in H.
  apply states_bind in H. destruct H as [H|(r & _ & H)]; [apply exds_ready_states in H; exact H|].
  rewrite (exds_ready_states _ _ _ (states_last _ _)) in H. destruct r; [|cbn [states In] in H; intuition auto].
  apply states_bind in H. destruct H as [H|(b & _ & H)]; [apply load_built_states in H; exact H|].
  rewrite (load_built_states _ _ _ _ (states_last _ _)) in H. cbn [states In] in H; intuition auto.
Qed.
Lemma parameters_states su a s t : In t (states s (command_parameters_list su a)) -> t = s.
Proof.
  unfold command_parameters_list. destruct (get_parameters_by_index _ _) as [l|]; [|cbn [states In]; intuition auto].
  destruct (list_parameters (a_key a) l) as (out & [u|er]); cbn [states In]; intuition auto.
Qed.
Lemma list_datapoints_states e key l : forall s t, In t (states s (list_datapoints e key l)) -> t = s.
Proof.
  induction l as [|en l IH]; intros s t; cbn [list_datapoints]; [cbn [states In]; intuition auto|].
  cbn [states In]. intros [H|[H|H]]; [auto|auto|].
  match type of H with context [match ?x with Ok _ => _ | Err _ => _ end] => destruct x as [body|er] end; [|cbn [states In] in H; intuition auto].
  destruct (en_get en "index"); [|cbn [states In] in H; intuition auto].
  apply states_bind in H. destruct H as [H|(r & _ & H)]; [apply IH in H; exact H|].
  rewrite (IH _ _ (states_last _ _)) in H. cbn [states In] in H. intuition auto.
Qed.
Lemma with_states su f s t : (forall u, In t (states s (f u)) -> t = s) -> In t (states s (with_exds su f)) -> t = s.
Proof. unfold with_exds. destruct (su_exds su) as [u|]; [intros H; apply (H u)|]. intros _. cbn [states In]. intuition auto. Qed.
Lemma ret_states {A} (x : A) s t : In t (states s (Ret x)) -> t = s.
Proof. cbn [states In]. intuition auto. Qed.

Theorem C60_looking_only : forall su a s t, In (asks a) looking_only -> In t (states s (handle_command su a)) -> t = s.
Proof.
  intros su a s t Ha Ht. rewrite handle_behind in Ht. destruct (behind su a) as [c|] eqn:E; [|cbn [states In] in Ht; intuition auto].
  apply run_one_states in Ht. apply behind_in in E. unfold looking_only in Ha. cbn [In] in E, Ha.
  destruct (asks a) as (o & v).
  destruct Ha as [Ha|[Ha|[Ha|[Ha|[Ha|[]]]]]]; injection Ha as <- <-;
    repeat (destruct E as [E|E]; [try discriminate E; apply (f_equal snd) in E; cbn [snd] in E; subst c|]); try contradiction.
  - apply ret_states in Ht. exact Ht.
  - revert Ht. apply with_states. intros u. apply exds_def_show_states.
  - revert Ht. apply with_states. intros u. apply exds_show_states.
  - apply ret_states in Ht. exact Ht.
  - apply parameters_states in Ht. exact Ht.
Qed.

(** 'exp-def show' and 'datapoints list' may create folders, and nothing else *)
Lemma subfolder_grown e name s t : In t (states s (subfolder e name)) -> forall q, grown s t q.
Proof. intros H q. destruct (subfolder_spec e name s) as (H1 & _). apply (H1 t H q). Qed.
Lemma exp_def_show_grown su s t : In t (states s (command_exp_def_show su)) -> forall q, grown s t q.
Proof.
  intros H. apply printing_states in H. apply states_bind in H.
  assert (A : forall u, In u (states s (ex_get_locks (su_exp su))) -> forall q, grown s u q).
  { unfold ex_get_locks. intros u Hu. apply states_bind in Hu. destruct Hu as [Hu|(p & _ & Hu)]; [apply (subfolder_grown _ _ _ _ Hu)|].
    cbn [states In] in Hu. assert (u = fst (exec s (subfolder (su_exp su) "locks"))) as -> by intuition auto. apply (subfolder_grown _ _ _ _ (states_last _ _)). }
  destruct H as [H|(l & _ & H)]; [apply A, H|]. cbn [states In] in H.
  assert (t = fst (exec s (ex_get_locks (su_exp su)))) as -> by intuition auto. apply A, states_last.
Qed.
Lemma datapoints_states su a s t : In t (states s (command_datapoints_list su a)) ->
  t = s \/ In t (states s (subfolder (su_exp su) "algorithm_run_datapoints")).
Proof.
  unfold command_datapoints_list. destruct (get_parameters_by_index _ _) as [l|]; [|cbn [states In]; intuition auto]. intros H.
  right. apply states_bind in H. rewrite attempt_states, attempt_exec in H. cbn [fst snd] in H. destruct H as [H|(f & _ & H)]; [exact H|].
  assert (t = fst (exec s (subfolder (su_exp su) "algorithm_run_datapoints"))) as ->; [|apply states_last].
  destruct f as [p|er]; [|cbn [states In] in H; intuition auto]. apply states_bind in H. destruct H as [H|((out & r) & _ & H)]; [apply list_datapoints_states in H; exact H|].
  rewrite (list_datapoints_states _ _ _ _ _ (states_last _ _)) in H. destruct r as [u|er]; cbn [states In] in H; intuition auto.
Qed.
Theorem C60_looking_changes_no_file : forall su a s t q, In (asks a) looking -> In t (states s (handle_command su a)) ->
  lookup t q = lookup s q \/ (lookup s q = None /\ lookup t q = Some Dir).
Proof.
  intros su a s t q Ha Ht.
  assert (C : In (asks a) looking_only \/ asks a = ("exp-def", "show") \/ asks a = ("datapoints", "list")) by (unfold looking, looking_only in *; cbn [In] in *; intuition auto).
  destruct C as [C|C]; [left; rewrite (C60_looking_only su a s t C Ht); reflexivity|].
  rewrite handle_behind in Ht. unfold behind in Ht. destruct C as [C|C]; rewrite C in Ht; cbn [assoc fst snd String.eqb Ascii.eqb Bool.eqb andb] in Ht; apply run_one_states in Ht.
  - apply (exp_def_show_grown _ _ _ Ht q).
  - apply datapoints_states in Ht. destruct Ht as [-> |Ht]; [left; reflexivity|apply (subfolder_grown _ _ _ _ Ht q)].
Qed.

(** ** The command lines used below *)
Definition exp_def_show : arguments := Arguments "exp-def" (Some "show") None "" None.
Definition exp_run (index : option text) : arguments := Arguments "exp" (Some "run") index "" None.
Definition exp_lock (ty : string) : arguments := Arguments "exp" (Some "lock") None ty None.
Definition exp_unlock (ty : string) : arguments := Arguments "exp" (Some "unlock") None ty None.
Definition datapoints_list (index : option text) (key : option string) : arguments := Arguments "datapoints" (Some "list") index "" key.
Definition exds (verb ty : string) : arguments := Arguments "exds" (Some verb) None ty None.

(** ** C60, part 3: 'exp-def show' always reports that the folder exists: it has just created it. *)
Theorem C60_exp_def_show_creates_the_folder : forall su s t out,
  ex_path (su_exp su) <> [] -> exec s (handle_command su exp_def_show) = (t, Ok (out, Ok true)) ->
  lookup t (ex_path (su_exp su)) = Some Dir /\ exists locks, out = [ShowExperiment locks true].
Proof.
  intros su s t out Hne. change (handle_command su exp_def_show) with (run_one (command_exp_def_show su)). rewrite run_one_exec.
  unfold command_exp_def_show, printing. rewrite exec_bind, attempt_exec, exec_bind. unfold ex_get_locks. rewrite exec_bind.
  destruct (subfolder_spec (su_exp su) "locks" s) as (_ & HQ). destruct (exec s (subfolder (su_exp su) "locks")) as (u & r). cbn [fst snd] in HQ.
  destruct HQ as [(-> & HD)| ->]; cbn [exec fst snd]; [|discriminate].
  assert (Hd : lookup u (ex_path (su_exp su)) = Some Dir) by (apply HD; [assumption|unfold sub_path; apply below_app]).
  rewrite exists_spec by assumption. rewrite Hd. intros [= <- <-]. eauto.
Qed.

(** ** C60, part 4: what 'datapoints list' shows. *)
(** the report on one entry: its datapoint if there is one, '(missing)' if there is no file; None when
    it cannot be made (no 'index', or something at that path that is not a complete datapoint) *)
Definition report (s : fs) (e : experiment) (key : option string) (en : entry) : option (list item) :=
  match en_get en "index" with
  | None => None
  | Some i =>
    match lookup s (datapoint_file e (en_ID en)) with
    | None => Some [DatapointHeader i (en_ID en); Missing]
    | Some (File (CDatapoint id mb)) =>
      Some [DatapointHeader i (en_ID en);
            match key with
            | None => ShowDatapoint id mb
            | Some k => if in_dec string_dec k ["parameters"; "ID"; "algorithm_name"; "mb"; "start_time"; "end_time"; "duration"] then ShowAttribute k id mb else NotFound k
            end]
    | Some _ => None
    end
  end.
(** nothing but folders on the way to [p] *)
Definition no_file_above (s : fs) (p : path) : Prop := forall q c, below p q = true -> lookup s q <> Some (File c).

Lemma attribute_dec k : existsb (String.eqb k) datapoint_attributes = if in_dec string_dec k ["parameters"; "ID"; "algorithm_name"; "mb"; "start_time"; "end_time"; "duration"] then true else false.
Proof.
  unfold datapoint_attributes. destruct (in_dec string_dec k _) as [Hi|Hi].
  - apply existsb_exists. exists k. split; [exact Hi|apply String.eqb_refl].
  - destruct (existsb _ _) eqn:E; [|reflexivity]. exfalso. apply existsb_exists in E. destruct E as (x & Hx & E). apply String.eqb_eq in E. subst x. contradiction.
Qed.
Lemma datapoint_file_nonempty e id : datapoint_file e id <> [].
Proof. intros E. apply (f_equal (@length _)) in E. rewrite datapoint_file_length in E. cbn [length] in E. lia. Qed.
Lemma list_datapoints_exec e key l : forall s, exists l1 l2 out r,
  exec s (list_datapoints e key l) = (s, Ok (out, r)) /\ l = l1 ++ l2 /\
  map Some (map (fun en => match report s e key en with Some b => b | None => [] end) l1) = map (report s e key) l1 /\
  out = flat_map (fun en => match report s e key en with Some b => b | None => [] end) l1 /\
  ((l2 = [] /\ r = Ok tt) \/ exists en l3 er, l2 = en :: l3 /\ report s e key en = None /\ r = Err er).
Proof.
  induction l as [|en l IH]; intros s; cbn [list_datapoints].
  - exists [], [], [], (Ok tt). repeat split; auto.
  - cbn [exec]. rewrite exists_spec by apply datapoint_file_nonempty. unfold do_read.
    assert (G : forall er, report s e key en = None -> exists l1 l2 out r, (s, Ok ([], Err er)) = (s, Ok (out, r)) /\ en :: l = l1 ++ l2 /\
        map Some (map (fun en => match report s e key en with Some b => b | None => [] end) l1) = map (report s e key) l1 /\
        out = flat_map (fun en => match report s e key en with Some b => b | None => [] end) l1 /\
        ((l2 = [] /\ r = Ok tt) \/ exists en l3 er, l2 = en :: l3 /\ report s e key en = None /\ r = Err er)).
    { intros er Hr. exists [], (en :: l), [], (Err er). repeat split. right. exists en, l, er. auto. }
    assert (K : forall i body, report s e key en = Some [DatapointHeader i (en_ID en); body] ->
        exists l1 l2 out r, exec s (rest <~ list_datapoints e key l;; Ret (DatapointHeader i (en_ID en) :: body :: fst rest, snd rest)) = (s, Ok (out, r)) /\ en :: l = l1 ++ l2 /\
        map Some (map (fun en => match report s e key en with Some b => b | None => [] end) l1) = map (report s e key) l1 /\
        out = flat_map (fun en => match report s e key en with Some b => b | None => [] end) l1 /\
        ((l2 = [] /\ r = Ok tt) \/ exists en l3 er, l2 = en :: l3 /\ report s e key en = None /\ r = Err er)).
    { intros i body Hr. destruct (IH s) as (l1 & l2 & out & r & E & -> & H1 & -> & H3). rewrite exec_bind, E. cbn [exec fst snd].
      exists (en :: l1), l2, (DatapointHeader i (en_ID en) :: body :: flat_map (fun en => match report s e key en with Some b => b | None => [] end) l1), r.
      split; [reflexivity|]. split; [reflexivity|]. cbn [map flat_map]. rewrite Hr, H1. split; [reflexivity|]. split; [reflexivity|exact H3]. }
    destruct (lookup s (datapoint_file e (en_ID en))) as [[|[t|nc rows|id mb|]]|] eqn:El;
      try (cbn [exec]; apply G; unfold report; rewrite El; destruct (en_get en "index"); reflexivity).
    + destruct (en_get en "index") as [i|] eqn:Ei; [|cbn [exec]; apply G; unfold report; rewrite Ei; reflexivity].
      apply K. unfold report. rewrite Ei, El. destruct key as [k|]; [rewrite attribute_dec|]; [|reflexivity]. destruct (in_dec _ _ _); reflexivity.
    + destruct (en_get en "index") as [i|] eqn:Ei; [|cbn [exec]; apply G; unfold report; rewrite Ei; reflexivity].
      apply K. unfold report. rewrite Ei, El. reflexivity.
Qed.

Theorem C60_datapoints_list : forall su index key s selected,
  get_parameters_by_index index (su_params su) = Ok selected ->
  no_file_above s (ex_path (su_exp su) ++ ["algorithm_run_datapoints"; ex_sub (su_exp su)]) ->
  exists t l1 l2 bodies,
    selected = l1 ++ l2 /\ map Some bodies = map (report s (su_exp su) key) l1 /\
    ((l2 = [] /\ exec s (handle_command su (datapoints_list index key)) = (t, Ok (concat bodies ++ [TotalDatapoints (length selected)], Ok true))) \/
     (exists en l3 er, l2 = en :: l3 /\ report s (su_exp su) key en = None /\ exec s (handle_command su (datapoints_list index key)) = (t, Ok (concat bodies, Err er)))).
Proof.
  intros su index key s selected Hs Hf.
  change (handle_command su (datapoints_list index key)) with (run_one (command_datapoints_list su (datapoints_list index key))).
  unfold command_datapoints_list. cbn [a_index a_key datapoints_list]. rewrite Hs. rewrite run_one_exec, exec_bind, attempt_exec.
  destruct (subfolder_spec (su_exp su) "algorithm_run_datapoints" s) as (HI & HQ).
  assert (Hok : exec s (subfolder (su_exp su) "algorithm_run_datapoints") = (fst (exec s (subfolder (su_exp su) "algorithm_run_datapoints")), Ok (sub_path (su_exp su) "algorithm_run_datapoints"))).
  { unfold subfolder. rewrite exec_bind. pose proof (mkdirs_ok _ _ Hf) as M. unfold sub_path. destruct (exec s (mkdirs _)) as (u & r). cbn [snd] in M. subst r. reflexivity. }
  pose proof (HI _ (states_last (subfolder (su_exp su) "algorithm_run_datapoints") s)) as Hlast. rewrite Hok in *. set (u := fst (exec s (subfolder (su_exp su) "algorithm_run_datapoints"))) in *. cbn [fst snd] in *.
  assert (Hrep : forall en, report u (su_exp su) key en = report s (su_exp su) key en).
  { intros en. unfold report. rewrite (proj1 (Hlast _) (datapoint_file_length _ _)). reflexivity. }
  rewrite exec_bind. destruct (list_datapoints_exec (su_exp su) key selected u) as (l1 & l2 & out & r & E & -> & H1 & -> & H3). rewrite E.
  exists u, l1, l2, (map (fun en => match report u (su_exp su) key en with Some b => b | None => [] end) l1).
  split; [reflexivity|]. split; [rewrite H1; apply map_ext; exact Hrep|]. rewrite <- flat_map_concat_map.
  destruct H3 as [(-> & ->)|(en & l3 & er & -> & Hr & ->)]; cbn [exec].
  - left. split; [reflexivity|]. rewrite app_nil_r. reflexivity.
  - right. exists en, l3, er. split; [reflexivity|]. split; [rewrite <- Hrep; exact Hr|reflexivity].
Qed.

(** ** C60, part 5: running a selection. *)
(** the entry is among the selected ones and not skipped *)
Definition to_be_run (su : setup) (index : option text) (en : entry) : Prop :=
  exists selected, get_parameters_by_index index (su_params su) = Ok selected /\ In en selected /\ ar_skip (en_run en) = false.
(** the ID's of the entries of the setup are different *)
Definition distinct_entries (su : setup) : Prop := NoDup (map en_ID (su_params su)).

Lemma selection_part {A} index (l sel : list A) : get_parameters_by_index index l = Ok sel -> exists a b, l = a ++ sel ++ b.
Proof.
  unfold get_parameters_by_index. destruct (get_parameters_index index) as [[sl|]|]; cbn [bind]; [| |discriminate]; intros [= <-].
  - unfold py_slice. set (a := slice_bound (length l) (fst sl)). set (n := slice_bound (length l) (snd sl) - a). exists (firstn a l), (skipn n (skipn a l)).
    rewrite firstn_skipn, firstn_skipn. reflexivity.
  - exists [], []. rewrite app_nil_r. reflexivity.
Qed.
Lemma selection_distinct su index sel : distinct_entries su -> get_parameters_by_index index (su_params su) = Ok sel -> NoDup (map en_ID sel).
Proof.
  unfold distinct_entries. intros H E. destruct (selection_part _ _ _ E) as (a & b & Eq). rewrite Eq in H. rewrite !map_app in H. clear E Eq.
  revert H. generalize (map en_ID a) (map en_ID sel) (map en_ID b). clear. intros k l m. induction k as [|x k IH]; cbn [List.app]; intros H; [|inversion H; auto].
  induction l as [|x l IH]; cbn [List.app] in *; [constructor|]. inversion H; subst. constructor; [|auto]. intros Hi. apply H2, in_or_app. auto.
Qed.
Lemma selection_incl su index sel en : get_parameters_by_index index (su_params su) = Ok sel -> In en sel -> In en (su_params su).
Proof. intros E Hi. destruct (selection_part _ _ _ E) as (a & b & ->). apply in_or_app. right. apply in_or_app. auto. Qed.
Lemma distinct_ID su x y : distinct_entries su -> In x (su_params su) -> In y (su_params su) -> en_ID x = en_ID y -> x = y.
Proof.
  unfold distinct_entries. generalize (su_params su). clear su. induction l as [|z l IH]; intros H Hx Hy E; [destruct Hx|]. cbn [map] in H. inversion H; subst.
  destruct Hx as [->|Hx], Hy as [->|Hy]; auto; exfalso; apply H2; [rewrite E|rewrite <- E]; apply in_map; assumption.
Qed.
Lemma to_do_ids sel : map ar_ID (to_do (map en_run sel)) = map en_ID (filter (fun en => negb (ar_skip (en_run en))) sel).
Proof. induction sel as [|en sel IH]; [reflexivity|]. unfold to_do in *. cbn [map filter]. destruct (ar_skip (en_run en)); cbn [negb map]; [exact IH|]. rewrite IH. reflexivity. Qed.
Lemma distinct_run su index sel : distinct_entries su -> get_parameters_by_index index (su_params su) = Ok sel -> distinct_IDs (map en_run sel).
Proof.
  intros H E. unfold distinct_IDs. rewrite to_do_ids. pose proof (selection_distinct _ _ _ H E) as N. revert N. clear. induction sel as [|en sel IH]; intros N; [constructor|].
  cbn [map] in N. inversion N; subst. cbn [filter]. destruct (negb (ar_skip (en_run en))); cbn [map]; [|auto]. constructor; [|auto].
  intros Hi. apply in_map_iff in Hi. destruct Hi as (y & Ey & Hy). apply filter_In in Hy. apply H1. rewrite <- Ey. apply in_map, Hy.
Qed.
Lemma in_to_do sel en : In en sel -> ar_skip (en_run en) = false -> In (en_run en) (to_do (map en_run sel)).
Proof. intros Hi Hs. unfold to_do. apply filter_In. split; [apply in_map, Hi|]. rewrite Hs. reflexivity. Qed.

Lemma exp_run_exec su index s t out r : exec s (handle_command su (exp_run index)) = (t, Ok (out, r)) ->
  match get_parameters_by_index index (su_params su) with
  | Err er => t = s /\ out = [] /\ r = Err er
  | Ok sel => exists ids q, exec s (run_experiment (su_exp su) (su_options su) (su_exp_exds su) (map en_run sel)) = (t, Ok (ids, q)) /\
                            out = map RunStarted ids /\ r = match q with Ok _ => Ok true | Err er => Err er end
  end.
Proof.
  change (handle_command su (exp_run index)) with (run_one (command_exp_run su (exp_run index))). rewrite run_one_exec. unfold command_exp_run. cbn [a_index exp_run].
  destruct (get_parameters_by_index index (su_params su)) as [sel|er]; [|cbn [exec]; intros [= <- <- <-]; auto].
  rewrite exec_bind. destruct (answers_run (su_exp su) (su_options su) (su_exp_exds su) (map en_run sel) s) as ((ids & q) & E).
  destruct (exec s (run_experiment (su_exp su) (su_options su) (su_exp_exds su) (map en_run sel))) as (u & x). cbn [snd] in E. subst x. cbn [exec fst snd].
  destruct q as [[]|er]; intros [= <- <- <-]; eauto 6.
Qed.

(** a completed 'exp run' has started exactly the selected entries that are not skipped, in order, saved
    the datapoint of each, and locked the experiment if so configured: even when only some are selected *)
Theorem C60_exp_run : forall su index s t out, dataset_elsewhere (su_exp su) (su_exp_exds su) ->
  exec s (handle_command su (exp_run index)) = (t, Ok (out, Ok true)) ->
  exists selected, get_parameters_by_index index (su_params su) = Ok selected /\
    out = map (fun en => RunStarted (en_ID en)) (filter (fun en => negb (ar_skip (en_run en))) selected) /\
    (distinct_entries su -> save_datapoints (su_options su) = true ->
       forall en, In en selected -> ar_skip (en_run en) = false -> datapoint_saved t (su_exp su) (en_run en)) /\
    (experiment_locked t (su_exp su) <-> lock_after (su_options su) = true).
Proof.
  intros su index s t out Hx E. apply exp_run_exec in E. destruct (get_parameters_by_index index (su_params su)) as [sel|er] eqn:Es; [|destruct E as (_ & _ & ?); discriminate].
  destruct E as (ids & q & E & -> & Hq). destruct q as [[]|]; [|discriminate]. exists sel. split; [reflexivity|].
  destruct (C44_completed _ _ _ _ _ _ _ Hx E) as (_ & -> & _ & Hsv & Hl). split; [rewrite to_do_ids, map_map; reflexivity|]. split; [|exact Hl].
  intros HN Hs en Hi Hk. apply Hsv; [eapply distinct_run; eassumption|exact Hs|apply in_to_do; assumption].
Qed.
(** after that, no other selection can be run *)
Theorem C60_partial_run_locks_the_rest : forall su index s t out, dataset_elsewhere (su_exp su) (su_exp_exds su) -> lock_after (su_options su) = true ->
  exec s (handle_command su (exp_run index)) = (t, Ok (out, Ok true)) ->
  forall index' selected', get_parameters_by_index index' (su_params su) = Ok selected' ->
    exec t (handle_command su (exp_run index')) = (t, Ok ([], Err LockedErr)).
Proof.
  intros su index s t out Hx Hl E index' sel' Es'. apply exp_run_exec in E. destruct (get_parameters_by_index index (su_params su)) as [sel|er] eqn:Es; [|destruct E as (_ & _ & ?); discriminate].
  destruct E as (ids & q & E & -> & Hq). destruct q as [[]|]; [|discriminate].
  pose proof (C44_at_most_once _ _ _ _ _ _ _ (su_options su) (su_exp_exds su) (map en_run sel') Hx Hl E) as E2.
  change (handle_command su (exp_run index')) with (run_one (command_exp_run su (exp_run index'))). rewrite run_one_exec. unfold command_exp_run. cbn [a_index exp_run].
  rewrite Es', exec_bind, E2. reflexivity.
Qed.

(** *** running in parts: any number of selections, each run to the end and then unlocked *)
Inductive in_parts (su : setup) : list (option text) -> fs -> fs -> Prop :=
| parts_nil s : in_parts su [] s s
| parts_cons i rest s t u v out out' :
    exec s (handle_command su (exp_run i)) = (t, Ok (out, Ok true)) ->
    exec t (handle_command su (exp_unlock "")) = (u, Ok (out', Ok true)) ->
    in_parts su rest u v -> in_parts su (i :: rest) s v.

Lemma unlock_exec su ty s t out r : exec s (handle_command su (exp_unlock ty)) = (t, Ok (out, r)) ->
  out = [] /\ exec s (ex_unlock (su_exp su) ty) = (t, match r with Ok _ => Ok tt | Err er => Err er end).
Proof.
  change (handle_command su (exp_unlock ty)) with (run_one (silent (ex_unlock (su_exp su) ty))). rewrite run_one_exec. unfold silent. rewrite exec_bind, attempt_exec. cbn [exec].
  destruct (exec s (ex_unlock (su_exp su) ty)) as (u & [[]|er]); cbn [fst snd]; intros [= <- <- <-]; auto.
Qed.
Lemma unlock_keeps_datapoints e ty s id : lookup (fst (exec s (ex_unlock e ty))) (datapoint_file e id) = lookup s (datapoint_file e id).
Proof.
  destruct (ex_unlock_spec e ty s) as (HI & _). apply (HI _ (states_last _ _)); [|apply datapoint_file_length].
  intros E. symmetry in E. apply lock_not_datapoint in E. exact E.
Qed.
Lemma datapoint_below e id : below (datapoint_file e id) (ex_path e) = true.
Proof. unfold datapoint_file, sub_path. rewrite <- app_assoc. apply below_app. Qed.
(** a run changes the datapoints of the entries it runs only *)
Lemma run_keeps_datapoint su index s t en : dataset_elsewhere (su_exp su) (su_exp_exds su) -> distinct_entries su ->
  In t (states s (handle_command su (exp_run index))) -> In en (su_params su) -> ~ to_be_run su index en ->
  lookup t (datapoint_file (su_exp su) (en_ID en)) = lookup s (datapoint_file (su_exp su) (en_ID en)).
Proof.
  intros Hx HN Ht Hi Hn. change (handle_command su (exp_run index)) with (run_one (command_exp_run su (exp_run index))) in Ht. apply run_one_states in Ht.
  unfold command_exp_run in Ht. cbn [a_index exp_run] in Ht. destruct (get_parameters_by_index index (su_params su)) as [sel|er] eqn:Es; [|apply ret_states in Ht; subst; reflexivity].
  apply states_bind in Ht. assert (In t (states s (run_experiment (su_exp su) (su_options su) (su_exp_exds su) (map en_run sel)))) as Ht'.
  { destruct Ht as [Ht|(x & _ & Ht)]; [exact Ht|]. apply ret_states in Ht. subst t. apply states_last. }
  apply (C44_touches_only _ _ _ _ _ _ _ Hx Ht'); [apply datapoint_below|apply datapoint_file_length| |].
  - intros E. symmetry in E. apply lock_not_datapoint in E. exact E.
  - intros a Ha. split; [|apply datapoint_not_log]. intros E. apply datapoint_file_inj in E. unfold to_do in Ha. apply filter_In in Ha. destruct Ha as (Ha & Hk).
    apply in_map_iff in Ha. destruct Ha as (en' & <- & Hen'). apply Hn. exists sel. split; [exact Es|].
    assert (en = en') as -> by (apply (distinct_ID su); [assumption|assumption|eapply selection_incl; eassumption|exact E]).
    split; [exact Hen'|]. destruct (ar_skip (en_run en')); [discriminate|reflexivity].
Qed.
(** a selection that is in the table is decidable *)
Lemma to_be_run_dec su index en : distinct_entries su -> In en (su_params su) -> to_be_run su index en \/ ~ to_be_run su index en.
Proof.
  intros HN Hi. destruct (get_parameters_by_index index (su_params su)) as [sel|er] eqn:Es.
  - destruct (in_dec string_dec (en_ID en) (map en_ID sel)) as [H|H].
    + apply in_map_iff in H. destruct H as (en' & E & Hen'). assert (en' = en) as -> by (apply (distinct_ID su); [assumption|eapply selection_incl; eassumption|assumption|exact E]).
      destruct (ar_skip (en_run en)) eqn:Ek; [right; intros (s' & _ & _ & H); congruence|left; exists sel; auto].
    + right. intros (s' & E & Hen & _). rewrite Es in E. inversion E; subst s'. apply H, in_map, Hen.
  - right. intros (s' & E & _). congruence.
Qed.
Theorem C60_run_in_parts : forall su parts s v, dataset_elsewhere (su_exp su) (su_exp_exds su) -> distinct_entries su -> save_datapoints (su_options su) = true ->
  in_parts su parts s v ->
  (forall en index, In index parts -> to_be_run su index en -> datapoint_saved v (su_exp su) (en_run en)) /\
  (forall en, In en (su_params su) -> (forall index, In index parts -> ~ to_be_run su index en) ->
     lookup v (datapoint_file (su_exp su) (en_ID en)) = lookup s (datapoint_file (su_exp su) (en_ID en))).
Proof.
  intros su parts s v Hx HN Hs H. induction H as [s|i rest s t u v out out' E1 E2 H IH]; [split; [intros en i []|reflexivity]|].
  destruct IH as (IH1 & IH2). destruct (unlock_exec _ _ _ _ _ _ E2) as (_ & E2').
  assert (Hu : forall id, lookup u (datapoint_file (su_exp su) id) = lookup t (datapoint_file (su_exp su) id)).
  { intros id. rewrite <- (unlock_keeps_datapoints (su_exp su) "" t id), E2'. reflexivity. }
  destruct (C60_exp_run _ _ _ _ _ Hx E1) as (sel & Es & _ & Hsv & _).
  assert (Ht : In t (states s (handle_command su (exp_run i)))) by (pose proof (states_last (handle_command su (exp_run i)) s) as L; rewrite E1 in L; exact L).
  split.
  - intros en index Hi Hr.
    assert (Hin : In en (su_params su)) by (destruct Hr as (sel' & E & Hin & _); eapply selection_incl; eassumption).
    destruct (Exists_dec (fun j => to_be_run su j en) rest) as [D|D]; [|apply Exists_exists in D; destruct D as (j & Hj & D); eapply IH1; eassumption|].
    { intros j. destruct (get_parameters_by_index j (su_params su)) as [sel'|er] eqn:Ej; [|right; intros (s' & E & _); congruence].
      destruct (in_dec string_dec (en_ID en) (map en_ID sel')) as [Hd|Hd].
      - destruct (ar_skip (en_run en)) eqn:Ek; [right; intros (s' & _ & _ & Hk); congruence|left]. exists sel'. split; [exact Ej|]. split; [|exact Ek].
        apply in_map_iff in Hd. destruct Hd as (en' & Ee & Hen'). rewrite <- (distinct_ID su en' en HN (selection_incl _ _ _ _ Ej Hen') Hin Ee). exact Hen'.
      - right. intros (s' & E & Hen & _). rewrite Ej in E. inversion E; subst s'. apply Hd, in_map, Hen. }
    assert (Hni : forall j, In j rest -> ~ to_be_run su j en) by (intros j Hj Hj'; apply D, Exists_exists; eauto).
    destruct Hi as [<-|Hi]; [|exfalso; eapply Hni; eassumption].
    destruct Hr as (sel' & E & Hen & Hk). rewrite Es in E. inversion E; subst sel'. destruct (Hsv HN Hs en Hen Hk) as (mb & Eo & Ef).
    exists mb. split; [exact Eo|]. unfold file_is in *. change (ar_ID (en_run en)) with (en_ID en) in *. rewrite IH2, Hu by assumption. exact Ef.
  - intros en Hin Hni. rewrite IH2, Hu; [|assumption|intros j Hj; apply Hni; right; exact Hj].
    apply (run_keeps_datapoint su i s t en Hx HN Ht Hin). apply Hni. left. reflexivity.
Qed.

(** ** C60, part 6: after a run, 'datapoints list' tells what was run. *)
Lemma get_index_all su en : (forall en, In en (su_params su) -> en_get en "index" <> None) -> In en (su_params su) -> exists i, en_get en "index" = Some i.
Proof. intros H Hi. destruct (en_get en "index") eqn:E; [eauto|]. exfalso. exact (H en Hi E). Qed.

(** Run a selection of an experiment that has no datapoints yet; then list any selection: shown for each
    listed entry is the Markov boundary its run gave if it was run, and '(missing)' if it was not. *)
Theorem C60_run_then_list : forall su index s t out, dataset_elsewhere (su_exp su) (su_exp_exds su) -> distinct_entries su -> save_datapoints (su_options su) = true ->
  (forall en, In en (su_params su) -> en_get en "index" <> None) ->
  (forall en, In en (su_params su) -> lookup s (datapoint_file (su_exp su) (en_ID en)) = None) ->
  exec s (handle_command su (exp_run index)) = (t, Ok (out, Ok true)) ->
  no_file_above t (ex_path (su_exp su) ++ ["algorithm_run_datapoints"; ex_sub (su_exp su)]) ->
  forall index' listed, get_parameters_by_index index' (su_params su) = Ok listed ->
  exists u shown, exec t (handle_command su (datapoints_list index' None)) =
      (u, Ok (flat_map (fun ei => [DatapointHeader (snd (fst ei)) (en_ID (fst (fst ei))); snd ei]) shown ++ [TotalDatapoints (length listed)], Ok true)) /\
    map (fun x => fst (fst x)) shown = listed /\
    Forall (fun x => en_get (fst (fst x)) "index" = Some (snd (fst x)) /\
       (to_be_run su index (fst (fst x)) -> exists mb, ar_outcome (en_run (fst (fst x))) = Ok mb /\ snd x = ShowDatapoint (en_ID (fst (fst x))) mb) /\
       (~ to_be_run su index (fst (fst x)) -> snd x = Missing)) shown.
Proof.
  intros su index s t out Hx HN Hsv Hidx Hno E Hf index' listed El.
  destruct (C60_exp_run _ _ _ _ _ Hx E) as (sel & Es & _ & Hsaved & _).
  assert (Ht : In t (states s (handle_command su (exp_run index)))) by (pose proof (states_last (handle_command su (exp_run index)) s) as L; rewrite E in L; exact L).
  assert (R : forall en, In en (su_params su) -> exists i body, report t (su_exp su) None en = Some [DatapointHeader i (en_ID en); body] /\ en_get en "index" = Some i /\
     (to_be_run su index en -> exists mb, ar_outcome (en_run en) = Ok mb /\ body = ShowDatapoint (en_ID en) mb) /\ (~ to_be_run su index en -> body = Missing)).
  { intros en Hi. destruct (get_index_all su en Hidx Hi) as (i & Ei). unfold report. rewrite Ei. destruct (to_be_run_dec su index en HN Hi) as [D|D].
    - pose proof D as D'. destruct D as (sel' & Es' & Hen & Hk). rewrite Es in Es'. inversion Es'; subst sel'. destruct (Hsaved HN Hsv en Hen Hk) as (mb & Eo & Ef).
      unfold file_is in Ef. change (ar_ID (en_run en)) with (en_ID en) in Ef. rewrite Ef. eexists _, _. split; [reflexivity|]. split; [reflexivity|]. split; [eauto|]. intros N. contradiction.
    - rewrite (run_keeps_datapoint su index s t en Hx HN Ht Hi D), (Hno en Hi). eexists _, _. split; [reflexivity|]. split; [reflexivity|]. split; [intros D'; contradiction|reflexivity]. }
  destruct (C60_datapoints_list su index' None t listed El Hf) as (u & l1 & l2 & bodies & Hl & Hb & C).
  destruct C as [(-> & Ex)|(en & l3 & er & -> & Hr & _)].
  2: { exfalso. assert (In en (su_params su)) as Hi by (eapply selection_incl; [exact El|]; rewrite Hl; apply in_or_app; right; left; reflexivity).
       destruct (R en Hi) as (i & body & E' & _). congruence. }
  rewrite app_nil_r in Hl. subst l1. exists u.
  assert (G : forall l bs, (forall en, In en l -> In en (su_params su)) -> map Some bs = map (report t (su_exp su) None) l ->
    exists shown, concat bs = flat_map (fun ei => [DatapointHeader (snd (fst ei)) (en_ID (fst (fst ei))); snd ei]) shown /\ map (fun x => fst (fst x)) shown = l /\
    Forall (fun x => en_get (fst (fst x)) "index" = Some (snd (fst x)) /\
       (to_be_run su index (fst (fst x)) -> exists mb, ar_outcome (en_run (fst (fst x))) = Ok mb /\ snd x = ShowDatapoint (en_ID (fst (fst x))) mb) /\
       (~ to_be_run su index (fst (fst x)) -> snd x = Missing)) shown).
  { induction l as [|en l IH]; intros bs Hin Hbs; destruct bs as [|b bs]; try discriminate Hbs.
    - exists []. repeat split; constructor.
    - cbn [map] in Hbs. injection Hbs as Hb1 Hbs. destruct (IH bs (fun en' H => Hin en' (or_intror H)) Hbs) as (shown & E1 & E2 & E3).
      destruct (R en (Hin en (or_introl eq_refl))) as (i & body & Er & Ei & A & B). rewrite Er in Hb1. injection Hb1 as ->.
      exists ((en, i, body) :: shown). cbn [concat flat_map map fst snd List.app]. rewrite E1, E2. split; [reflexivity|]. split; [reflexivity|]. constructor; [|exact E3].
      cbn [fst snd]. split; [exact Ei|]. split; [exact A|exact B]. }
  destruct (G listed bodies) as (shown & E1 & E2 & E3); [intros en Hi; exact (selection_incl _ _ _ _ El Hi)|exact Hb|].
  exists shown. rewrite Ex, E1. auto.
Qed.

(** *** a crash at any point of 'exp run' *)
Definition sound_datapoint (s t : fs) (e : experiment) (a : alg_run) : Prop :=
  lookup t (datapoint_file e (ar_ID a)) = lookup s (datapoint_file e (ar_ID a)) \/
  lookup t (datapoint_file e (ar_ID a)) = Some (File Partial) \/
  exists mb, ar_outcome a = Ok mb /\ lookup t (datapoint_file e (ar_ID a)) = Some (File (CDatapoint (ar_ID a) mb)).
Lemma sound_after s t u e a : lookup u (datapoint_file e (ar_ID a)) = lookup t (datapoint_file e (ar_ID a)) -> sound_datapoint s t e a -> sound_datapoint s u e a.
Proof. unfold sound_datapoint. intros ->. auto. Qed.
Lemma sound_trans s t u e a : sound_datapoint s t e a -> sound_datapoint t u e a -> sound_datapoint s u e a.
Proof. unfold sound_datapoint. intros H1 [->|H2]; auto. Qed.
Lemma run_algorithm_sound e o a s : always (fun t => sound_datapoint s t e a) (run_algorithm e o a) s (fun _ _ => True).
Proof.
  unfold run_algorithm. apply always_bind, always_attempt.
  assert (H0 : always (fun t => lookup t (datapoint_file e (ar_ID a)) = lookup s (datapoint_file e (ar_ID a))) (lift (ar_init a) ;;; open_log e o (ar_ID a)) s (fun t r => True)).
  { destruct (ar_init a) as [[]|er]; cbn [lift pbind]; [|apply always_raise; auto]. unfold open_log. destruct (log_to_file o); [|apply always_ret; auto].
    apply always_bind. eapply always_conseq; [apply subfolder_spec| |].
    - intros t Ht. apply Ht, datapoint_file_length.
    - intros t [p|er] Ht _; [|auto]. pose proof (proj1 (Ht _) (datapoint_file_length e (ar_ID a))) as Hl.
      eapply always_step; [reflexivity|exact Hl|].
      assert (Hu : lookup (fst (do_open t (log_file e (ar_ID a)))) (datapoint_file e (ar_ID a)) = lookup s (datapoint_file e (ar_ID a))).
      { unfold do_open. destruct (is_dir t (log_file e (ar_ID a))); [exact Hl|]. destruct (is_dir t (parent (log_file e (ar_ID a)))); [|exact Hl].
        cbn [fst]. rewrite lookup_update. destruct (path_eqb_spec (datapoint_file e (ar_ID a)) (log_file e (ar_ID a))) as [C|C]; [apply datapoint_not_log in C; contradiction|exact Hl]. }
      destruct (snd (do_open t (log_file e (ar_ID a)))); [apply always_ret|apply always_raise]; auto. }
  eapply always_conseq; [exact H0|intros t Ht; left; exact Ht|]. intros t [u|er] Ht _; [|apply always_ret; [left; exact Ht|exact Logic.I]].
  apply always_bind.
  assert (H1 : always (fun t' => lookup t' (datapoint_file e (ar_ID a)) = lookup s (datapoint_file e (ar_ID a))) (close_log e o (ar_ID a) (ar_output a)) t (fun _ r => r = Ok tt)).
  { unfold close_log. destruct (log_to_file o); [|apply always_ret; auto]. eapply always_step; [reflexivity|exact Ht|]. apply always_ret; [|reflexivity].
    rewrite lookup_update. destruct (path_eqb_spec (datapoint_file e (ar_ID a)) (log_file e (ar_ID a))) as [C|C]; [apply datapoint_not_log in C; contradiction|exact Ht]. }
  eapply always_conseq; [exact H1|intros v Hv; left; exact Hv|]. intros v r Hv ->.
  destruct (ar_outcome a) as [mb|er] eqn:Eo; [|apply always_ret; [left; exact Hv|exact Logic.I]].
  destruct (save_datapoints o); [|apply always_ret; [left; exact Hv|exact Logic.I]].
  apply always_bind, always_attempt. unfold save_datapoint. apply always_bind. eapply always_conseq; [apply subfolder_spec| |].
  - intros w Hw. left. rewrite (proj1 (Hw _) (datapoint_file_length _ _)). exact Hv.
  - intros w [p|er] Hw _.
    2: { apply always_ret; [|exact Logic.I]. left. rewrite (proj1 (Hw _) (datapoint_file_length _ _)). exact Hv. }
    assert (Hl : lookup w (datapoint_file e (ar_ID a)) = lookup s (datapoint_file e (ar_ID a))) by (rewrite (proj1 (Hw _) (datapoint_file_length _ _)); exact Hv). clear Hw.
    unfold write_file. eapply always_step; [reflexivity|left; exact Hl|]. unfold do_open.
    assert (Hr : forall r, always (fun t0 => sound_datapoint s t0 e a) (Raise r : prog unit) w (fun t r => always (fun t0 => sound_datapoint s t0 e a) (Ret ([ar_ID a], r)) t (fun _ _ => True))).
    { intros r. apply always_raise; [left; exact Hl|]. apply always_ret; [left; exact Hl|exact Logic.I]. }
    destruct (is_dir w (datapoint_file e (ar_ID a))); [cbn [fst snd]; apply Hr|]. destruct (is_dir w (parent (datapoint_file e (ar_ID a)))); cbn [fst snd]; [|apply Hr].
    assert (HP : forall c, lookup (update w (datapoint_file e (ar_ID a)) c) (datapoint_file e (ar_ID a)) = Some c) by (intros c; rewrite lookup_update, path_eqb_refl; reflexivity).
    eapply always_step; [reflexivity|right; left; apply HP|].
    assert (HD : sound_datapoint s (update (update w (datapoint_file e (ar_ID a)) (File Partial)) (datapoint_file e (ar_ID a)) (File (CDatapoint (ar_ID a) mb))) e a).
    { right. right. exists mb. split; [exact Eo|]. rewrite lookup_update, path_eqb_refl. reflexivity. }
    apply always_ret; [exact HD|]. apply always_ret; [exact HD|exact Logic.I].
Qed.
Lemma run_all_sound e o a l : forall s, NoDup (map ar_ID (to_do l)) -> In a (to_do l) -> always (fun t => sound_datapoint s t e a) (run_all e o l) s (fun _ _ => True).
Proof.
  induction l as [|b l IH]; intros s HN Hi; [destruct Hi|]. unfold to_do in *. cbn [run_all filter] in *. destruct (ar_skip b); cbn [negb] in *; [apply IH; assumption|].
  cbn [map] in HN. inversion HN as [|? ? Hni HN']; subst. apply always_bind. destruct Hi as [->|Hi].
  - eapply always_conseq; [apply run_algorithm_sound|auto|]. intros t [(ids & [u|er])|er] Ht _; [| |exact Logic.I].
    + assert (K : forall v, only_runs e (map ar_ID (active l)) t v -> sound_datapoint s v e a).
      { intros v Hv. eapply sound_after; [|exact Ht]. apply Hv; [apply datapoint_file_length|]. intros id Hid. split; [|apply datapoint_not_log].
        intros Eq. apply datapoint_file_inj in Eq. subst id. contradiction. }
      apply always_bind. eapply always_conseq; [apply run_all_spec|exact K|]. intros v [r|er] Hv _; [|exact Logic.I]. apply always_ret; [apply K, Hv|exact Logic.I].
    + apply always_ret; [exact Ht|exact Logic.I].
  - assert (K : forall v, only_run e (ar_ID b) s v -> sound_datapoint s v e a).
    { intros v Hv. left. apply Hv; [apply datapoint_file_length| |apply datapoint_not_log]. intros Eq. apply datapoint_file_inj in Eq. apply Hni. rewrite <- Eq. apply in_map, Hi. }
    eapply always_conseq; [apply run_algorithm_spec|exact K|]. intros t [(ids & [u|er])|er] Ht _; [| |exact Logic.I].
    + apply always_bind. eapply always_conseq; [apply (IH t HN' Hi)| |].
      * intros v Hv. eapply sound_trans; [apply K, Ht|exact Hv].
      * intros v [r|er] Hv _; [|exact Logic.I]. apply always_ret; [eapply sound_trans; [apply K, Ht|exact Hv]|exact Logic.I].
    + apply always_ret; [apply K, Ht|exact Logic.I].
Qed.
Lemma run_experiment_sound e o x a l s : dataset_elsewhere e x -> NoDup (map ar_ID (to_do l)) -> In a (to_do l) ->
  always (fun t => sound_datapoint s t e a) (run_experiment e o x l) s (fun _ _ => True).
Proof.
  intros Hx HN Hi. unfold run_experiment. apply always_bind, always_attempt.
  assert (K : forall t, same_files e s t -> sound_datapoint s t e a) by (intros t Ht; left; apply Ht; [apply datapoint_below|apply datapoint_file_length]).
  eapply always_conseq; [apply start_spec, Hx|exact K|]. intros t [u|er] Ht _; [|apply always_ret; [apply K, Ht|exact Logic.I]].
  apply always_bind. eapply always_conseq; [apply (run_all_sound e o a l t HN Hi)| |].
  - intros v Hv. eapply sound_trans; [apply K, Ht|exact Hv].
  - intros v [(ids & [u'|er])|er] Hv _; [| |exact Logic.I].
    + pose proof (sound_trans _ _ _ _ _ (K t Ht) Hv) as Hv'. destruct (lock_after o); [|apply always_ret; [exact Hv'|exact Logic.I]].
      assert (L : forall w, only_lock e "experiment" v w -> sound_datapoint s w e a).
      { intros w Hw. eapply sound_after; [|exact Hv']. apply Hw; [|apply datapoint_file_length]. intros Eq. symmetry in Eq. apply lock_not_datapoint in Eq. exact Eq. }
      apply always_bind, always_attempt. eapply always_conseq; [apply ex_lock_spec|exact L|]. intros w r Hw _. apply always_ret; [apply L, Hw|exact Logic.I].
    + apply always_ret; [eapply sound_trans; [apply K, Ht|exact Hv]|exact Logic.I].
Qed.
(** Wherever 'exp run' is stopped: the datapoint of an entry that is not to be run is as it was; that of
    any other is as it was, torn, or exactly the result of its run. *)
Theorem C60_crash_leaves_sound_datapoints : forall su index s t en, dataset_elsewhere (su_exp su) (su_exp_exds su) -> distinct_entries su ->
  In t (states s (handle_command su (exp_run index))) -> In en (su_params su) ->
  let now := lookup t (datapoint_file (su_exp su) (en_ID en)) in
  now = lookup s (datapoint_file (su_exp su) (en_ID en)) \/
  (to_be_run su index en /\ (now = Some (File Partial) \/ exists mb, ar_outcome (en_run en) = Ok mb /\ now = Some (File (CDatapoint (en_ID en) mb)))).
Proof.
  intros su index s t en Hx HN Ht Hi. cbv zeta. destruct (to_be_run_dec su index en HN Hi) as [D|D]; [|left; eapply run_keeps_datapoint; eassumption].
  pose proof D as D'. destruct D as (sel & Es & Hen & Hk).
  change (handle_command su (exp_run index)) with (run_one (command_exp_run su (exp_run index))) in Ht. apply run_one_states in Ht.
  unfold command_exp_run in Ht. cbn [a_index exp_run] in Ht. rewrite Es in Ht.
  assert (In t (states s (run_experiment (su_exp su) (su_options su) (su_exp_exds su) (map en_run sel)))) as Ht'.
  { apply states_bind in Ht. destruct Ht as [Ht|(x & _ & Ht)]; [exact Ht|]. apply ret_states in Ht. subst t. apply states_last. }
  destruct (run_experiment_sound (su_exp su) (su_options su) (su_exp_exds su) (en_run en) (map en_run sel) s Hx) as (H & _);
    [apply (distinct_run su index sel HN Es)|apply in_to_do; assumption|].
  destruct (H t Ht') as [A|A]; [left; exact A|right; split; [exact D'|exact A]].
Qed.

(** ** C60, part 7: 'parameters list'. *)
Theorem C60_parameters_list : forall su index key s selected,
  get_parameters_by_index index (su_params su) = Ok selected -> (forall en, In en selected -> en_get en "index" <> None) ->
  exists bodies, exec s (handle_command su (Arguments "parameters" (Some "list") index "" key)) = (s, Ok (concat bodies ++ [TotalParameters (length selected)], Ok true)) /\
    Forall2 (fun en b => exists i, en_get en "index" = Some i /\
       b = [ParametersHeader i (en_ID en); match key with
                                           | None => ShowParameters en
                                           | Some k => match en_get en k with Some v => ShowValue k v | None => NotFound k end
                                           end]) selected bodies.
Proof.
  intros su index key s selected Es Hi. set (a := Arguments "parameters" (Some "list") index "" key).
  change (handle_command su a) with (run_one (command_parameters_list su a)). rewrite run_one_exec. unfold command_parameters_list. cbn [a_index a_key a]. rewrite Es.
  assert (G : forall l, (forall en, In en l -> en_get en "index" <> None) -> exists bodies, list_parameters key l = (concat bodies, Ok tt) /\
    Forall2 (fun en b => exists i, en_get en "index" = Some i /\
       b = [ParametersHeader i (en_ID en); match key with
                                           | None => ShowParameters en
                                           | Some k => match en_get en k with Some v => ShowValue k v | None => NotFound k end
                                           end]) l bodies).
  { induction l as [|en l IH]; intros H; [exists []; split; [reflexivity|constructor]|]. destruct (IH (fun e' He => H e' (or_intror He))) as (bs & E & F).
    cbn [list_parameters]. destruct (en_get en "index") as [i|] eqn:Ei; [|exfalso; exact (H en (or_introl eq_refl) Ei)]. rewrite E. cbn [fst snd].
    eexists ([_; _] :: bs). split; [reflexivity|]. constructor; [|exact F]. exists i. split; [exact Ei|reflexivity]. }
  destruct (G selected Hi) as (bs & E & F). rewrite E. cbn [exec]. exists bs. split; [reflexivity|exact F].
Qed.

(** ** C60, part 8: the dataset commands. *)
(** 'exds build' of a dataset that can be stored, then: another build does nothing, 'show' shows what was
    built, 'delete' is refused *)
Theorem C60_exds_built_once : forall su u s b,
  su_exds su = Some u -> eu_source u = Ok b -> eu_save u = true -> eu_lock u = true -> eu_split u = has_split b ->
  proper_labels b -> clean_labels b -> ~ locked s (lp_path (eu_folder u)) -> lp_path (eu_folder u) <> [] ->
  (forall label, In label (part_labels (has_split b)) -> writable s (lp_path (eu_folder u) ++ [label])) ->
  exec s (handle_command su (exds "show" "")) = (s, Ok ([MustBeBuilt], Ok true)) /\
  exists t, exec s (handle_command su (exds "build" "")) = (t, Ok ([HasBeenBuilt], Ok true)) /\
    exec t (handle_command su (exds "build" "")) = (t, Ok ([AlreadyBuilt], Ok true)) /\
    exec t (handle_command su (exds "show" "")) = (t, Ok ([ShowDataset (read_back_built b)], Ok true)) /\
    exec t (handle_command su (exds "delete" "")) = (t, Ok ([], Err LockedErr)).
Proof.
  intros su u s b Hu Hb Hs Hl Hsp Hp Hc Hnl Hne Hw.
  change (handle_command su (exds "build" "")) with (run_one (with_exds su command_exds_build)).
  change (handle_command su (exds "show" "")) with (run_one (with_exds su command_exds_show)).
  change (handle_command su (exds "delete" "")) with (run_one (with_exds su command_exds_delete)).
  unfold with_exds. rewrite Hu. rewrite !run_one_exec.
  assert (R0 : exec s (exds_ready (eu_folder u)) = (s, Ok false)).
  { unfold exds_ready. rewrite exec_bind. unfold folder_exists. cbn [exec]. destruct (exists_ s (lp_path (eu_folder u))); [|reflexivity]. apply unlocked_run, Hnl. }
  split; [unfold command_exds_show, printing; rewrite exec_bind, attempt_exec, exec_bind, R0; reflexivity|].
  destruct (C42_build_then_load (eu_folder u) s b Hp Hnl Hw) as (t & E & Hlk & Hr & Hld). exists t. rewrite !run_one_exec.
  split; [|split; [|split]].
  - unfold command_exds_build, printing. rewrite exec_bind, attempt_exec, exec_bind, R0. cbn iota. rewrite exec_bind, Hs, Hl, Hb, E. reflexivity.
  - unfold command_exds_build, printing. rewrite exec_bind, attempt_exec, exec_bind, Hr. reflexivity.
  - unfold command_exds_show, printing. rewrite exec_bind, attempt_exec, exec_bind, Hr. cbn iota. rewrite exec_bind, Hsp.
    pose proof (Hld Hc) as L. unfold load_if_ready in L. rewrite exec_bind, Hr in L. cbn iota in L. rewrite exec_bind in L.
    destruct (exec t (load_built (eu_folder u) (has_split b))) as (v & [x|er]); cbn [exec] in L; [|discriminate]. inversion L; subst. reflexivity.
  - unfold command_exds_delete, silent. rewrite exec_bind, attempt_exec. rewrite (proj1 (C42_locked_not_deleted (eu_folder u) t "" Hlk)). reflexivity.
Qed.
(** Any lock counts as "built": after 'exds lock' with any type on a folder that exists, even an empty
    one, 'exds build' reports that the dataset is already built and does nothing. *)
Theorem C60_any_lock_counts_as_built : forall su u ty s t out,
  su_exds su = Some u -> lookup s (lp_path (eu_folder u)) = Some Dir ->
  exec s (handle_command su (exds "lock" ty)) = (t, Ok (out, Ok true)) ->
  exec t (handle_command su (exds "build" "")) = (t, Ok ([AlreadyBuilt], Ok true)).
Proof.
  intros su u ty s t out Hu Hd.
  change (handle_command su (exds "build" "")) with (run_one (with_exds su command_exds_build)).
  change (handle_command su (exds "lock" ty)) with (run_one (with_exds su (fun u => command_exds_lock u (exds "lock" ty)))).
  unfold with_exds. rewrite Hu. rewrite !run_one_exec. unfold command_exds_lock, silent. rewrite exec_bind, attempt_exec. cbn [exec a_type exds].
  destruct (lock_spec (eu_folder u) ty s) as (HI & HQ). pose proof (HI _ (states_last _ _)) as HL.
  destruct (exec s (lock_folder (eu_folder u) ty)) as (v & r). cbn [fst snd] in *. destruct r as [[]|er]; [|discriminate]. intros [= <- <-].
  pose proof (proj1 HQ eq_refl) as Hlk.
  assert (Hdv : lookup v (lp_path (eu_folder u)) = Some Dir).
  { rewrite HL; [exact Hd|]. destruct (get_lock_form (eu_folder u) (the_type (eu_folder u) ty)) as (n & _ & ->). intros E. apply (f_equal (@length _)) in E. rewrite app_length in E. cbn [length] in E. lia. }
  assert (Hr : exec v (exds_ready (eu_folder u)) = (v, Ok true)).
  { unfold exds_ready, folder_exists. cbn [pbind exec]. replace (exists_ v (lp_path (eu_folder u))) with true; [apply locked_run, Hlk|].
    unfold exists_. destruct (lp_path (eu_folder u)); [reflexivity|]. rewrite Hdv. reflexivity. }
  unfold command_exds_build, printing. rewrite exec_bind, attempt_exec, exec_bind, Hr. reflexivity.
Qed.

(** ** C60, part 9: locking and unlocking by command, and what 'exds-def show' reports. *)
(** the lock file of a given type in a dataset folder; '' stands for the default type *)
Definition exds_lock_file (u : exds_use) (ty : string) : path :=
  lp_path (eu_folder u) ++ [String.append "locked_" (if String.eqb ty "" then lp_default (eu_folder u) else ty)].
Lemma exds_lock_file_the_type u ty : lp_default (eu_folder u) <> "" -> get_lock (eu_folder u) (the_type (eu_folder u) ty) = exds_lock_file u ty.
Proof.
  intros Hd. unfold get_lock, lock_name, exds_lock_file, the_type. destruct (String.eqb ty "") eqn:E; [|rewrite E; reflexivity].
  destruct (String.eqb (lp_default (eu_folder u)) "") eqn:E2; reflexivity.
Qed.
Theorem C60_exds_lock_and_unlock : forall su u ty s t out, su_exds su = Some u -> lp_default (eu_folder u) <> "" ->
  (exec s (handle_command su (exds "lock" ty)) = (t, Ok (out, Ok true)) ->
     lookup t (exds_lock_file u ty) <> None /\ (forall q, q <> exds_lock_file u ty -> lookup t q = lookup s q)) /\
  (exec s (handle_command su (exds "unlock" ty)) = (t, Ok (out, Ok true)) ->
     lookup t (exds_lock_file u ty) = None /\ (forall q, q <> exds_lock_file u ty -> lookup t q = lookup s q)).
Proof.
  intros su u ty s t out Hu Hdef.
  assert (Hty : String.eqb (the_type (eu_folder u) ty) "" = false).
  { unfold the_type. destruct (String.eqb ty "") eqn:E; [|exact E]. apply String.eqb_neq. exact Hdef. }
  assert (Hne : get_lock (eu_folder u) (the_type (eu_folder u) ty) <> []) by (unfold get_lock; destruct (lp_path (eu_folder u)); discriminate).
  change (handle_command su (exds "lock" ty)) with (run_one (with_exds su (fun u => command_exds_lock u (exds "lock" ty)))).
  change (handle_command su (exds "unlock" ty)) with (run_one (with_exds su (fun u => command_exds_unlock u (exds "unlock" ty)))).
  unfold with_exds. rewrite Hu. rewrite !run_one_exec. unfold command_exds_lock, command_exds_unlock, silent. rewrite !exec_bind, !attempt_exec. cbn [exec a_type exds].
  rewrite <- (exds_lock_file_the_type u ty Hdef). split; intros E.
  - destruct (lock_spec (eu_folder u) ty s) as (HI & _). pose proof (HI _ (states_last _ _)) as HL.
    assert (G : snd (exec s (lock_folder (eu_folder u) ty)) = Ok tt -> lookup (fst (exec s (lock_folder (eu_folder u) ty))) (get_lock (eu_folder u) (the_type (eu_folder u) ty)) <> None).
    { unfold lock_folder. fold (the_type (eu_folder u) ty). rewrite exec_bind. unfold folder_is_locked. rewrite Hty. cbn [exec]. rewrite exists_spec by exact Hne.
      destruct (lookup s (get_lock (eu_folder u) (the_type (eu_folder u) ty))) eqn:El; [cbn [exec fst snd]; congruence|].
      destruct (write_file_spec (get_lock (eu_folder u) (the_type (eu_folder u) ty)) (CText [108; 111; 99; 107; 101; 100]) s) as (_ & [(_ & W)|(W & _)]); congruence. }
    destruct (exec s (lock_folder (eu_folder u) ty)) as (v & [[]|er]); cbn [fst snd] in *; [|discriminate]. injection E as <- <-. split; [apply G; reflexivity|exact HL].
  - destruct (unlock_spec (eu_folder u) ty s) as (HI & _). pose proof (HI _ (states_last _ _)) as HL.
    assert (G : snd (exec s (unlock_folder (eu_folder u) ty)) = Ok tt -> lookup (fst (exec s (unlock_folder (eu_folder u) ty))) (get_lock (eu_folder u) (the_type (eu_folder u) ty)) = None).
    { unfold unlock_folder. fold (the_type (eu_folder u) ty). rewrite exec_bind. unfold folder_is_locked. rewrite Hty. cbn [exec]. rewrite exists_spec by exact Hne.
      destruct (lookup s (get_lock (eu_folder u) (the_type (eu_folder u) ty))) as [[|c]|] eqn:El; unfold unlink; cbn [exec]; unfold do_unlink; rewrite ?El; cbn [fst snd exec]; [discriminate| |auto].
      intros _. rewrite lookup_remove, path_eqb_refl. reflexivity. }
    destruct (exec s (unlock_folder (eu_folder u) ty)) as (v & [[]|er]); cbn [fst snd] in *; [|discriminate]. injection E as <- <-. split; [apply G; reflexivity|exact HL].
Qed.
(** 'exds-def show' reports the lock files there are, whether the dataset counts as built (the folder
    exists and has some lock), and whether the folder exists *)
Theorem C60_exds_def_show : forall su u s, su_exds su = Some u -> lp_path (eu_folder u) <> [] ->
  exists locks ready present,
    exec s (handle_command su (Arguments "exds-def" (Some "show") None "" None)) = (s, Ok ([ShowDefinition locks ready present], Ok true)) /\
    (forall name, In name locks <-> prefix "locked_" name = true /\ lookup s (lp_path (eu_folder u) ++ [name]) <> None) /\
    (present = true <-> lookup s (lp_path (eu_folder u)) <> None) /\
    (ready = true <-> present = true /\ locked s (lp_path (eu_folder u))).
Proof.
  intros su u s Hu Hne. set (a := Arguments "exds-def" (Some "show") None "" None).
  change (handle_command su a) with (run_one (with_exds su command_exds_def_show)). unfold with_exds. rewrite Hu, run_one_exec.
  unfold command_exds_def_show, printing. rewrite exec_bind, attempt_exec. cbn [exec]. rewrite exec_bind. unfold exds_ready, folder_exists. rewrite exec_bind. cbn [exec].
  rewrite exists_spec by exact Hne. destruct (is_locked_any (eu_folder u) s) as (b & Eb & _ & Hb).
  destruct (lookup s (lp_path (eu_folder u))) as [n|] eqn:El.
  - rewrite Eb. cbn [pbind exec fst snd]. rewrite exists_spec, El by exact Hne. eexists _, _, _. split; [reflexivity|]. split; [|split].
    + intros name. rewrite names_in_spec. tauto.
    + split; [discriminate|reflexivity].
    + rewrite Hb. tauto.
  - cbn [pbind exec fst snd]. rewrite exists_spec, El by exact Hne. eexists _, _, _. split; [reflexivity|]. split; [|split].
    + intros name. rewrite names_in_spec. tauto.
    + split; [discriminate|congruence].
    + split; [discriminate|intros (? & _); discriminate].
Qed.
(** the same for an experiment *)
Theorem C60_exp_lock_and_unlock : forall su ty s t out,
  (exec s (handle_command su (exp_lock ty)) = (t, Ok (out, Ok true)) -> exec t (ex_is_locked (su_exp su) (meant ty)) = (t, Ok true)) /\
  (exec s (handle_command su (exp_unlock ty)) = (t, Ok (out, Ok true)) -> exec t (ex_is_locked (su_exp su) (meant ty)) = (t, Ok false)).
Proof.
  intros su ty s t out. split; intros E.
  - apply (C43_lock_then_locked _ _ s). revert E. change (handle_command su (exp_lock ty)) with (run_one (silent (ex_lock (su_exp su) ty))). rewrite run_one_exec. unfold silent. rewrite exec_bind, attempt_exec. cbn [exec].
    destruct (exec s (ex_lock (su_exp su) ty)) as (u & [[]|er]); cbn [fst snd]; intros [= <- <-]; reflexivity.
  - apply (C43_unlock_then_unlocked _ _ s). destruct (unlock_exec _ _ _ _ _ _ E) as (_ & E2). exact E2.
Qed.

(** ** Examples *)
Definition numbered (i : nat) (a : alg_run) (tags : list string) : entry :=
  Entry a (Some tags) (fun k => if String.eqb k "index" then Some [48 + i] else None).
Definition a_setup : setup :=
  Setup sub_a all_on None (Some (ExdsUse a_definition false true true (Ok (tiny 1))))
    [numbered 0 (good "run0" [3]) ["fast"]; numbered 1 (good "run1" [1; 2]) ["slow"]; numbered 2 (AlgRun "run2" true (Ok tt) (Ok []) []) ["fast"; "slow"]].
Example C60_nonvacuous :
  distinct_entries a_setup /\ dataset_elsewhere (su_exp a_setup) (su_exp_exds a_setup) /\
  let t := fst (exec [] (handle_command a_setup (exp_run (Some [49])))) in
  snd (exec [] (handle_command a_setup (exp_run (Some [49])))) = Ok ([RunStarted "run1"], Ok true) /\
  snd (exec t (handle_command a_setup (datapoints_list None None))) =
    Ok ([DatapointHeader [48] "run0"; Missing; DatapointHeader [49] "run1"; ShowDatapoint "run1" [1; 2]; DatapointHeader [50] "run2"; Missing; TotalDatapoints 3], Ok true) /\
  snd (exec t (handle_command a_setup (exp_run (Some [48])))) = Ok ([], Err LockedErr).
Proof.
  split; [unfold distinct_entries; vm_compute; repeat (constructor; [cbn [In]; intuition discriminate|]); constructor|]. split; [exact Logic.I|].
  vm_compute. auto.
Qed.
Example C60_in_parts_nonvacuous : exists v, in_parts a_setup [Some [49]; Some [48]] [] v /\ to_be_run a_setup (Some [49]) (numbered 1 (good "run1" [1; 2]) ["slow"]).
Proof.
  eexists. split.
  - eapply parts_cons; [vm_compute; reflexivity|vm_compute; reflexivity|]. eapply parts_cons; [vm_compute; reflexivity|vm_compute; reflexivity|]. apply parts_nil.
  - exists [numbered 1 (good "run1" [1; 2]) ["slow"]]. split; [vm_compute; reflexivity|]. split; [left; reflexivity|reflexivity].
Qed.
(** a lock of another type protects the folder from deletion but does not stop 'exp run' *)
Theorem C60_other_lock_does_not_stop_a_run :
  let t := fst (exec [] (handle_command a_setup (exp_lock "archive"))) in
  snd (exec t (handle_command a_setup (Arguments "exp" (Some "delete") None "" None))) = Ok ([], Err LockedErr) /\
  snd (exec t (handle_command a_setup (exp_run None))) = Ok ([RunStarted "run0"; RunStarted "run1"], Ok true).
Proof. vm_compute. auto. Qed.
(** a lock set by hand on an empty folder: nothing was built, 'build' refuses, 'show' fails *)
Theorem C60_lock_by_hand_blocks_the_build :
  let s := fst (exec [] (mkdirs (lp_path a_definition))) in
  let t := fst (exec s (handle_command a_setup (exds "lock" "archive"))) in
  exec t (handle_command a_setup (exds "build" "")) = (t, Ok ([AlreadyBuilt], Ok true)) /\
  snd (exec t (handle_command a_setup (exds "show" ""))) = Ok ([], Err OSErr).
Proof. vm_compute. auto. Qed.
