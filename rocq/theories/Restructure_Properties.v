(** C85: moving the results of the old dcMI sub-experiments to the new layout (restructure.py). *)
From Coq Require Import String.
From Verif Require Import Base Matrix_Model FS_Model FS_Proofs Experiment_Model Restructure_Spec Restructure_Model Restructure_Proofs.
Open Scope list_scope.

(** Wherever the script is killed, every file and folder is whole at its old or at its new place, the
    results of one kind are together, nothing at a new place has been overwritten, and nothing else has
    changed except for missing folders of the new layout. *)
Theorem C85_killed s t : Old_layout s -> In t (mstates s restructure) -> Between s t.
Proof. intros OL. apply (proj1 (safe_restructure s OL)). Qed.

(** Without anything in the way it ends well, with everything at its new place. *)
Theorem C85_moved s : Old_layout s -> (forall sub df, ~ in_the_way s sub df) ->
  exists t, mexec s restructure = (t, None) /\ Moved s t.
Proof.
  intros OL N. destruct (safe_restructure s OL) as (_ & S & _).
  destruct (mexec s restructure) as (t, [e|]); cbn [fst snd] in S.
  - destruct S as (_ & sub & df & W). destruct (N _ _ W).
  - exists t. auto.
Qed.

(** Nothing but something in the way stops it. *)
Theorem C85_only s t e : Old_layout s -> mexec s restructure = (t, Some e) ->
  e = OSErr /\ exists sub df, in_the_way s sub df.
Proof. intros OL E. destruct (safe_restructure s OL) as (_ & S & _). rewrite E in S. exact S. Qed.

(** With something in the way it is stopped by an OSError: what could not be moved, and what is in its
    way, are as they were, and every other file is at its old or at its new place. *)
Theorem C85_stopped s sub df : Old_layout s -> in_the_way s sub df ->
  exists t, mexec s restructure = (t, Some OSErr) /\ Between s t /\
    (forall rest, lookup t (old_folder sub :: df :: rest) = lookup s (old_folder sub :: df :: rest)) /\
    (forall rest, lookup t (new_folder :: df :: sub :: rest) = lookup s (new_folder :: df :: sub :: rest)).
Proof.
  intros OL W. destruct (safe_restructure s OL) as (_ & S & B).
  destruct (mexec s restructure) as (t, r); cbn [fst snd] in *.
  destruct W as (K & N & W0). pose proof (conj K (conj N W0) : in_the_way s sub df) as W.
  destruct (proj1 (proj2 B) sub df K) as [A | (_ & Nw)]; [|contradiction].
  exists t. split; [|split; [assumption|split; [exact A|exact (data_same _ _ _ _ B K A)]]].
  destruct r as [e|].
  - destruct S as (-> & _). reflexivity.
  - exfalso. destruct (lookup s [old_folder sub; df]) as [n|] eqn:E; [|congruence].
    destruct S as (S & _). destruct (S [old_folder sub; df] [new_folder; df; sub] n) as (E2 & _); [constructor; assumption|assumption|].
    rewrite A in E2. congruence.
Qed.

(** A file where the folder of the experiment or of one of the eight kinds should be stops it before
    anything has moved: every file and folder is where it was, and only folders have been created. *)
Theorem C85_no_folder s p c : p = [new_folder] \/ (exists df, moved_kind df /\ p = [new_folder; df]) ->
  lookup s p = Some (File c) ->
  exists t, mexec s restructure = (t, Some OSErr) /\
    forall q, lookup t q = lookup s q \/ (lookup s q = None /\ lookup t q = Some Dir).
Proof.
  intros P L. unfold restructure. rewrite create_structure_flat.
  match goal with |- context [fold_right MMkdir ?k ?ps] => destruct (mkdirs_stop k ps s) as (R & G) end.
  - apply Forall_app. split; [apply prefixes_nonempty|]. apply Forall_flat_map, Forall_forall. intros df _. apply prefixes_nonempty.
  - exists p, c. split; [|assumption]. apply in_app_iff. destruct P as [-> | (df & K & ->)].
    + left. left. reflexivity.
    + right. apply in_flat_map. exists df. split; [apply kind_In; assumption|]. right. left. reflexivity.
  - match type of R with snd ?x = _ => destruct x as (t, r) end. cbn [fst snd] in *. subst r. exists t. split; [reflexivity|exact G].
Qed.

(** Killed anywhere, and any number of times, and started again, it ends with the same: everything moved. *)
Inductive killed_runs (s : fs) : fs -> Prop :=
| killed_none : killed_runs s s
| killed_again t u : killed_runs s t -> In u (mstates t restructure) -> killed_runs s u.
Theorem C85_again s t : Old_layout s -> (forall sub df, ~ in_the_way s sub df) -> killed_runs s t ->
  exists t', mexec t restructure = (t', None) /\ Moved s t'.
Proof.
  intros OL N H.
  assert (I : Old_layout t /\ (forall sub df, ~ in_the_way t sub df) /\ (forall u, Moved t u -> Moved s u)).
  { induction H as [|t u H IH Hu]; [auto|]. destruct IH as (OLt & Nt & C).
    pose proof (C85_killed t u OLt Hu) as B. split; [|split].
    - eapply layout_between; eassumption.
    - intros sub df W. apply (Nt sub df). eapply in_the_way_between; eassumption.
    - intros v M. apply C. eapply moved_compose; eassumption. }
  destruct I as (OLt & Nt & C). destruct (C85_moved t OLt Nt) as (t' & E & M). exists t'. auto.
Qed.

(** What the old sub-experiment had is where the new experiment's definition looks for it: all results of
    a kind in its subfolder of that kind, each run's datapoint and log, and each lock. *)
Theorem C85_found s t sub e : Moved s t -> ex_path e = [new_folder] -> ex_sub e = sub ->
  (forall df rest n, moved_kind df -> lookup s (old_folder sub :: df :: rest) = Some n ->
     lookup t (sub_path e df ++ rest) = Some n) /\
  (forall id n, lookup s [old_folder sub; "algorithm_run_datapoints"%string; String.append id ".pickle"] = Some n ->
     lookup t (datapoint_file e id) = Some n) /\
  (forall id n, lookup s [old_folder sub; "algorithm_run_logs"%string; String.append id ".log"] = Some n ->
     lookup t (log_file e id) = Some n) /\
  (forall ty c, ty <> ""%string -> lookup s [old_folder sub; String.append "locked_" ty] = Some (File c) ->
     lookup t (lock_file e ty) = Some (File c) /\ lookup t [old_folder sub; String.append "locked_" ty] = None).
Proof.
  intros (M & _) P Sb.
  assert (D : forall df rest n, moved_kind df -> lookup s (old_folder sub :: df :: rest) = Some n ->
     lookup t (sub_path e df ++ rest) = Some n).
  { intros df rest n K L. unfold sub_path. rewrite P, Sb. cbn [List.app].
    apply (M (old_folder sub :: df :: rest)); [constructor; assumption|assumption]. }
  split; [exact D|]. split; [|split].
  - intros id n L. apply D; [|assumption]. unfold moved_kind. tauto.
  - intros id n L. apply D; [|assumption]. unfold moved_kind. tauto.
  - intros ty c T L. unfold lock_file, sub_path. rewrite P, Sb.
    destruct (String.eqb_spec ty "") as [?|_]; [contradiction|]. cbn [List.app].
    assert (Mv : moves s [old_folder sub; String.append "locked_" ty] [new_folder; "locks"%string; sub; String.append "locked_" ty]).
    { econstructor; [|exact L]. exact (prefix_append "locked" (String.append "_" ty)). }
    destruct (M _ _ _ Mv L) as (E1 & E2). split; [exact E2|exact E1].
Qed.

(** Anything else of the sub-experiment stays where it was, where nothing looks for it: the plots, and any
    other file or folder that is neither one of the eight kinds nor a file whose name starts with "locked". *)
Theorem C85_left s t sub x rest : Moved s t -> ~ moved_kind x -> prefix "locked" x = false ->
  lookup t (old_folder sub :: x :: rest) = lookup s (old_folder sub :: x :: rest).
Proof.
  intros (_ & K) N P. destruct (K (old_folder sub :: x :: rest)) as [E | (C & _)]; [|exact E|destruct (old_not_created _ _ _ C)].
  intros (q & [(M & _) | (M & _)]); [|destruct (old_not_dst _ _ _ _ M)].
  inversion M; subst; [contradiction|congruence].
Qed.
Theorem C85_plots s t sub rest : Moved s t ->
  lookup t (old_folder sub :: "plots"%string :: rest) = lookup s (old_folder sub :: "plots"%string :: rest).
Proof.
  intros M. apply C85_left; [assumption| |reflexivity].
  unfold moved_kind. intros H. repeat destruct H as [H | H]; discriminate H.
Qed.

(** ** a repository with two old sub-experiments *)
Definition example : fs :=
  [ (["dcMIEvExpII_a"%string], Dir); (["dcMIEvExpII_a"; "jht"]%string, Dir);
    (["dcMIEvExpII_a"; "jht"; "x.pickle"]%string, File (CText [1]));
    (["dcMIEvExpII_a"; "plots"]%string, Dir);
    (["dcMIEvExpII_a"; "locked_experiment"]%string, File (CText [2]));
    (["other"]%string, Dir);
    (["dcMIEvExpII_b"%string], Dir); (["dcMIEvExpII_b"; "jht"]%string, Dir);
    (["dcMIEvExpII_b"; "jht"; "x.pickle"]%string, File (CText [3])) ].
Ltac in_example H :=
  unfold example in H; cbn [lookup assoc] in H.
Lemma example_In p n : lookup example p = Some n -> In (p, n) example.
Proof.
  unfold lookup. generalize example. intros l. induction l as [|(q, m) l IH]; cbn [assoc]; [discriminate|].
  destruct (path_eqb_spec p q) as [<-|]; intros H; [left; congruence|right; auto].
Qed.
Lemma example_some p : lookup example p <> None -> In p (map fst example).
Proof. intros H. apply lookup_In. assumption. Qed.
Theorem C85_example_layout : Old_layout example /\ (forall sub df, ~ in_the_way example sub df).
Proof.
  assert (O : forall a, old_folder a <> "other"%string) by (intros a; unfold old_folder; cbn [String.append]; congruence).
  assert (Nw : forall rest, lookup example (new_folder :: rest) = None).
  { intros rest. destruct (lookup example (new_folder :: rest)) eqn:E; [|reflexivity]. exfalso.
    apply example_In in E. unfold example, new_folder in E. cbn [In] in E.
    repeat destruct E as [E | E]; try discriminate E; destruct E. }
  split; [constructor|].
  - intros sub x rest H. apply example_some in H. cbn [map fst example In] in H.
    repeat destruct H as [H | H]; try (exfalso; exact H);
      try (assert (E := f_equal (@tl string) H); cbn [tl] in E; try discriminate E; clear E);
      assert (E := f_equal (hd ""%string) H); cbn [hd] in E; rewrite <- E; try reflexivity.
  - intros sub df rest K H. apply example_some in H. cbn [map fst example In] in H.
    repeat destruct H as [H | H]; try (exfalso; exact H);
      assert (E := f_equal (hd ""%string) H); cbn [hd] in E; rewrite <- E;
      assert (E2 := f_equal (fun l => hd ""%string (tl l)) H); cbn [hd tl] in E2; try (rewrite <- E2; discriminate);
      exfalso; subst df; unfold moved_kind in K; repeat destruct K as [K | K]; discriminate K.
  - intros df sub x rest K H. rewrite Nw in H. congruence.
  - reflexivity.
  - intros sub df c K H. apply example_In in H. unfold example in H. cbn [In] in H.
    repeat destruct H as [H | H]; try (exfalso; exact H); try congruence.
    assert (E : df = "locked_experiment"%string) by congruence. subst df.
    unfold moved_kind in K; repeat destruct K as [K | K]; discriminate K.
  - intros p c C H. destruct (created_shape _ _ C) as [E | [(y & E) | (y & E)]]; rewrite E, Nw in H; discriminate H.
  - intros sub name c P H. apply Nw.
  - intros sub df (K & N & [(c & W) | (x & rest & W)]); rewrite Nw in W; congruence.
Qed.
Theorem C85_example_run :
  let (t, r) := mexec example restructure in
  r = None /\ lookup t ["dcMIEvExpII"; "jht"; "a"; "x.pickle"]%string = Some (File (CText [1])) /\
  lookup t ["dcMIEvExpII"; "jht"; "b"; "x.pickle"]%string = Some (File (CText [3])) /\
  lookup t ["dcMIEvExpII"; "locks"; "a"; "locked_experiment"]%string = Some (File (CText [2])) /\
  lookup t ["dcMIEvExpII_a"; "plots"]%string = Some Dir /\ lookup t ["dcMIEvExpII_a"; "jht"]%string = None.
Proof. vm_compute. repeat split. Qed.
(** the same, with something at a new place *)
Definition blocked : fs := (["dcMIEvExpII"%string], Dir) :: (["dcMIEvExpII"; "jht"]%string, Dir) ::
  (["dcMIEvExpII"; "jht"; "b"]%string, Dir) :: (["dcMIEvExpII"; "jht"; "b"; "y"]%string, Dir) :: example.
Theorem C85_example_blocked :
  let (t, r) := mexec blocked restructure in
  r = Some OSErr /\ in_the_way blocked "b" "jht" /\
  lookup t ["dcMIEvExpII"; "jht"; "a"; "x.pickle"]%string = Some (File (CText [1])) /\
  lookup t ["dcMIEvExpII_b"; "jht"; "x.pickle"]%string = Some (File (CText [3])).
Proof.
  vm_compute. split; [reflexivity|]. split; [|split; reflexivity].
  split; [tauto|]. split; [discriminate|]. right. exists "y"%string, []. discriminate.
Qed.
(** why Old_layout asks that no lock is already at its new place: rename replaces it without a word *)
Definition locked_twice : fs := (["dcMIEvExpII"%string], Dir) :: (["dcMIEvExpII"; "locks"]%string, Dir) ::
  (["dcMIEvExpII"; "locks"; "a"]%string, Dir) ::
  (["dcMIEvExpII"; "locks"; "a"; "locked_experiment"]%string, File (CText [9])) :: example.
Theorem C85_example_lock_replaced :
  let (t, r) := mexec locked_twice restructure in
  r = None /\ lookup t ["dcMIEvExpII"; "locks"; "a"; "locked_experiment"]%string = Some (File (CText [2])).
Proof. vm_compute. split; reflexivity. Qed.
Theorem C85_example_no_folder :
  let s := (["dcMIEvExpII"%string], Dir) :: (["dcMIEvExpII"; "jht"]%string, File (CText [5])) :: example in
  let (t, r) := mexec s restructure in
  r = Some OSErr /\ lookup t ["dcMIEvExpII_a"; "jht"; "x.pickle"]%string = Some (File (CText [1])) /\
  lookup t ["dcMIEvExpII"; "jht"]%string = Some (File (CText [5])).
Proof. vm_compute. repeat split. Qed.
