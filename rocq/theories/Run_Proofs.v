(** Experiment runs: which algorithm runs are started, what is saved, when the lock appears. *)
From Coq Require Import String.
From Verif Require Import Base Matrix_Model Text_Model FS_Model FS_Proofs Split_Model Storage_Model Storage_Spec Storage_Proofs Exds_Proofs Exds_Success Experiment_Model Experiment_Proofs.
Open Scope string_scope.
Open Scope list_scope.

(** *** the dataset's folder is elsewhere *)
Section Outside.
  Variable lp : lockable.
  Let P := lp_path lp.
  Definition outside (s t : fs) : Prop := forall q, below q P = false -> below P q = false -> lookup t q = lookup s q.
  Lemma outside_refl s : outside s s. Proof. intros q _ _. reflexivity. Qed.
  Lemma outside_trans s t u : outside s t -> outside t u -> outside s u.
  Proof. intros H1 H2 q A B. rewrite H2, H1 by assumption. reflexivity. Qed.
  Lemma always_then {A B} (m : prog A) (f : A -> prog B) s : always (outside s) m s (fun _ _ => True) ->
    (forall a t, always (outside t) (f a) t (fun _ _ => True)) -> always (outside s) (pbind m f) s (fun _ _ => True).
  Proof.
    intros H Hf. apply always_bind. eapply always_conseq; [exact H|auto|]. intros t [a|e] Ht _; [|exact Logic.I].
    eapply always_conseq; [apply (Hf a t)| |auto]. intros u Hu. eapply outside_trans; eauto.
  Qed.
  Lemma save_dm_outside d s : always (outside s) (save_dm d P) s (fun _ _ => True).
  Proof.
    eapply always_conseq; [apply (save_dm_spec d P s)| |auto]. intros t Ht q A B. apply Ht.
    - intros Hin. apply (file_inside lp) in Hin. unfold P in *. destruct Hin as (Hin & _). congruence.
    - destruct (below (P ++ [dm_label d]) q) eqn:E; [|reflexivity]. exfalso.
      apply below_spec in E. destruct E as (r & E). destruct r as [|x r] using rev_ind.
      + rewrite app_nil_r in E. subst q. rewrite below_app in A. discriminate.
      + rewrite app_assoc in E. apply app_inj_tail in E. destruct E as (E & _).
        assert (below P q = true) by (apply below_spec; exists r; exact E). congruence.
  Qed.
  Lemma ensure_outside s : always (outside s) (lp_ensure_folder lp) s (fun _ _ => True).
  Proof. unfold lp_ensure_folder. eapply always_conseq; [apply mkdirs_spec| |auto]. intros t Ht q A B. apply Ht, B. Qed.
  Lemma is_locked_outside ty s : always (outside s) (folder_is_locked lp ty) s (fun _ _ => True).
  Proof.
    unfold folder_is_locked. destruct (String.eqb ty "").
    - eapply always_step; [reflexivity|apply outside_refl|]. apply always_ret; [apply outside_refl|exact Logic.I].
    - eapply always_step; [reflexivity|apply outside_refl|]. apply always_ret; [apply outside_refl|exact Logic.I].
  Qed.
  Lemma ret_outside {A} (a : A) s : always (outside s) (Ret a) s (fun _ _ => True).
  Proof. apply always_ret; [apply outside_refl|exact Logic.I]. Qed.
  Lemma raise_outside {A} er s : always (outside s) (Raise er : prog A) s (fun _ _ => True).
  Proof. apply always_raise; [apply outside_refl|exact Logic.I]. Qed.
  Lemma save_plain_outside m s : always (outside s) (save_plain lp m) s (fun _ _ => True).
  Proof.
    unfold save_plain. apply always_then; [apply ensure_outside|]. intros _ t. apply always_then; [apply is_locked_outside|].
    intros [] u; [apply raise_outside|apply save_dm_outside].
  Qed.
  Lemma build_outside do_save auto_lock source s : always (outside s) (build lp do_save auto_lock source) s (fun _ _ => True).
  Proof.
    unfold build. destruct source as [b|er]; cbn [lift pbind]; [|apply raise_outside]. destruct do_save; [|apply ret_outside].
    unfold finalize_and_save. apply always_then.
    - destruct (finalize_built b) as [m|f tr te]; cbn [save_built]; [apply save_plain_outside|].
      apply always_then; [apply save_plain_outside|]. intros _ t. apply always_then; [apply ensure_outside|]. intros _ u.
      apply always_then; [apply is_locked_outside|]. intros [] v; [apply raise_outside|].
      apply always_then; [apply save_dm_outside|]. intros _ w. apply save_dm_outside.
    - intros _ t. destruct auto_lock; [|apply ret_outside].
      eapply always_conseq; [apply lock_spec| |auto]. intros u Hu q A B. apply Hu. intros ->.
      destruct (get_lock_form lp (the_type lp "")) as (n & _ & E). rewrite E in A. fold P in A. rewrite below_app in A. discriminate.
  Qed.
End Outside.

Lemma unrelated_inside (P E q : path) : below P E = false -> below E P = false -> below q E = true -> below q P = false /\ below P q = false.
Proof.
  intros H1 H2 Hq. split.
  - destruct (below q P) eqn:B; [|reflexivity]. exfalso. apply below_spec in Hq, B. destruct Hq as (a & ->). destruct B as (b & E').
    assert (Hc : forall (x y a b : path), x ++ a = y ++ b -> below x y = true \/ below y x = true).
    { clear. induction x as [|u x IH]; intros y a b Eq; [right; apply below_spec; exists y; reflexivity|].
      destruct y as [|v y]; [left; reflexivity|]. cbn [List.app] in Eq. inversion Eq; subst. cbn [below]. rewrite String.eqb_refl. cbn [andb].
      eapply IH; eassumption. }
    destruct (Hc _ _ _ _ E'); congruence.
  - destruct (below P q) eqn:B; [|reflexivity]. exfalso. rewrite (below_trans _ _ _ B Hq) in H1. discriminate.
Qed.

Section Run.
  Variable e : experiment.
  Variable o : run_options.
  Let N := length (ex_path e) + 3.

  (** *** one algorithm run *)
  Definition only_run (id : string) (s t : fs) : Prop :=
    forall q, length q = N -> q <> datapoint_file e id -> q <> log_file e id -> lookup t q = lookup s q.
  Lemma only_run_refl id s : only_run id s s. Proof. intros q _ _ _. reflexivity. Qed.
  Lemma only_run_trans id s t u : only_run id s t -> only_run id t u -> only_run id s u.
  Proof. intros H1 H2 q A B C. rewrite H2, H1 by assumption. reflexivity. Qed.

  Lemma open_log_spec id s : always (only_run id s) (open_log e o id) s (fun t r => r = Ok tt \/ exists er, r = Err er).
  Proof.
    unfold open_log. destruct (log_to_file o); [|apply always_ret; [apply only_run_refl|auto]].
    apply always_bind. eapply always_conseq; [apply subfolder_spec| |].
    - intros t Ht q L _ _. apply Ht, L.
    - intros t r Ht [(-> & _)| ->]; [|eauto].
      assert (Ht' : only_run id s t) by (intros q L _ _; apply Ht, L).
      eapply always_step; [reflexivity|exact Ht'|].
      assert (Hu : only_run id s (fst (do_open t (log_file e id)))).
      { eapply only_run_trans; [exact Ht'|]. intros q _ _ Nq. unfold do_open.
        destruct (is_dir t (log_file e id)); [reflexivity|]. destruct (is_dir t (parent (log_file e id))); [|reflexivity].
        cbn [fst]. rewrite lookup_update. destruct (path_eqb_spec q (log_file e id)); [congruence|reflexivity]. }
      destruct (snd (do_open t (log_file e id))); [apply always_ret; auto|apply always_raise; eauto].
  Qed.
  Lemma close_log_spec id out s : always (only_run id s) (close_log e o id out) s (fun t r => r = Ok tt).
  Proof.
    unfold close_log. destruct (log_to_file o); [|apply always_ret; [apply only_run_refl|auto]].
    eapply always_step; [reflexivity|apply only_run_refl|]. apply always_ret; [|reflexivity].
    intros q _ _ Nq. rewrite lookup_update. destruct (path_eqb_spec q (log_file e id)); [congruence|reflexivity].
  Qed.
  Definition saved (s : fs) (id : string) (mb : list nat) : Prop := lookup s (datapoint_file e id) = Some (File (CDatapoint id mb)).
  Lemma save_datapoint_spec id mb s : always (only_run id s) (save_datapoint e id mb) s
    (fun t r => (r = Ok tt /\ saved t id mb) \/ r = Err OSErr).
  Proof.
    unfold save_datapoint. apply always_bind. eapply always_conseq; [apply subfolder_spec| |].
    - intros t Ht q L _ _. apply Ht, L.
    - intros t r Ht [(-> & _)| ->]; [|auto].
      eapply always_conseq; [apply write_file_spec| |].
      + intros u Hu q L Nq _. rewrite Hu by assumption. apply Ht, L.
      + intros u r _ [(-> & H)|(-> & _)]; auto.
  Qed.
  Definition done (t : fs) (a : alg_run) : Prop := exists mb, ar_outcome a = Ok mb /\ (save_datapoints o = true -> saved t (ar_ID a) mb).
  Lemma run_algorithm_spec a s : always (only_run (ar_ID a) s) (run_algorithm e o a) s
    (fun t r => (r = Ok ([ar_ID a], Ok tt) /\ done t a) \/ exists ids er, r = Ok (ids, Err er) /\ (ids = [] \/ ids = [ar_ID a])).
  Proof.
    unfold run_algorithm. apply always_bind, always_attempt.
    assert (H0 : always (only_run (ar_ID a) s) (lift (ar_init a) ;;; open_log e o (ar_ID a)) s (fun t r => r = Ok tt \/ exists er, r = Err er)).
    { destruct (ar_init a) as [[]|er]; cbn [lift pbind]; [apply open_log_spec|]. apply always_raise; [apply only_run_refl|eauto]. }
    eapply always_conseq; [exact H0|auto|]. intros t r Ht [-> |(er & ->)].
    2: { apply always_ret; [exact Ht|]. right. exists [], er. auto. }
    apply always_bind. eapply always_conseq; [apply close_log_spec| |].
    - intros u Hu. eapply only_run_trans; eauto.
    - intros u r Hu' ->. assert (Hu : only_run (ar_ID a) s u) by (eapply only_run_trans; eauto).
      destruct (ar_outcome a) as [mb|er] eqn:Eo.
      + destruct (save_datapoints o) eqn:Es.
        * apply always_bind, always_attempt. eapply always_conseq; [apply save_datapoint_spec| |].
          -- intros v Hv. eapply only_run_trans; eauto.
          -- intros v r Hv [(-> & Hsv)| ->].
             ++ apply always_ret; [eapply only_run_trans; eauto|]. left. split; [reflexivity|]. exists mb. auto.
             ++ apply always_ret; [eapply only_run_trans; eauto|]. right. exists [ar_ID a], OSErr. auto.
        * apply always_ret; [exact Hu|]. left. split; [reflexivity|]. exists mb. split; [assumption|congruence].
      + apply always_ret; [exact Hu|]. right. exists [ar_ID a], er. auto.
  Qed.

  (** *** all of them *)
  Definition active (l : list alg_run) : list alg_run := filter (fun a => negb (ar_skip a)) l.
  Definition only_runs (ids : list string) (s t : fs) : Prop :=
    forall q, length q = N -> (forall id, In id ids -> q <> datapoint_file e id /\ q <> log_file e id) -> lookup t q = lookup s q.
  Lemma only_runs_refl ids s : only_runs ids s s. Proof. intros q _ _. reflexivity. Qed.
  Lemma only_run_runs id ids s t : In id ids -> only_run id s t -> only_runs ids s t.
  Proof. intros Hin H q L Hq. apply H; [assumption| |]; apply (Hq id Hin). Qed.
  Lemma only_runs_incl i j s t : incl i j -> only_runs i s t -> only_runs j s t.
  Proof. intros Hin H q L Hq. apply H; [assumption|]. intros id Hid. apply Hq, Hin, Hid. Qed.
  Lemma only_runs_trans ids s t u : only_runs ids s t -> only_runs ids t u -> only_runs ids s u.
  Proof. intros H1 H2 q A B. rewrite H2, H1 by assumption. reflexivity. Qed.
  Lemma done_kept ids s t a : only_runs ids s t -> ~ In (ar_ID a) ids -> done s a -> done t a.
  Proof.
    intros H Nin (mb & E & Hs). exists mb. split; [assumption|]. intros Hd. unfold saved. rewrite H; [apply Hs, Hd|apply datapoint_file_length|].
    intros id Hid. split; [intros Eq; apply datapoint_file_inj in Eq; subst; contradiction|apply datapoint_not_log].
  Qed.

  Lemma run_all_spec l : forall s, always (only_runs (map ar_ID (active l)) s) (run_all e o l) s
    (fun t r => (r = Ok (map ar_ID (active l), Ok tt) /\ (forall a, In a (active l) -> exists mb, ar_outcome a = Ok mb) /\
                 (NoDup (map ar_ID (active l)) -> forall a, In a (active l) -> done t a)) \/
                (exists l1 a l2 ids er, r = Ok (ids, Err er) /\ active l = l1 ++ a :: l2 /\
                 (ids = map ar_ID l1 \/ ids = map ar_ID (l1 ++ [a])) /\
                 (NoDup (map ar_ID (active l)) -> forall b, In b l1 -> done t b))).
  Proof.
    induction l as [|a l IH]; intros s; cbn [run_all].
    - apply always_ret; [apply only_runs_refl|]. left. split; [reflexivity|]. split; [intros a []|intros _ a []].
    - unfold active. cbn [filter]. fold (active l). destruct (ar_skip a) eqn:Es; cbn [negb]; [apply IH|].
      apply always_bind. eapply always_conseq; [apply run_algorithm_spec| |].
      + intros t Ht. apply (only_run_runs (ar_ID a)); [left; reflexivity|exact Ht].
      + intros t r Ht H. apply (only_run_runs (ar_ID a) (map ar_ID (a :: active l))) in Ht; [|left; reflexivity].
        destruct H as [(-> & Hd)|(ids & er & -> & Hids)].
        * apply always_bind. eapply always_conseq; [apply IH| |].
          -- intros u Hu. eapply only_runs_trans; [exact Ht|]. eapply only_runs_incl; [|exact Hu]. intros x Hx. right. exact Hx.
          -- intros u r Hu H.
             assert (Htu : only_runs (map ar_ID (a :: active l)) s u) by (eapply only_runs_trans; [exact Ht|]; eapply only_runs_incl; [|exact Hu]; intros x Hx; right; exact Hx).
             destruct H as [(-> & Ho & Hdone)|(l1 & a' & l2 & ids & er & -> & El & Hids & Hdone)].
             ++ apply always_ret; [exact Htu|]. left. split; [reflexivity|]. split.
                ** intros b [<-|Hb]; [|auto]. destruct Hd as (mb & E & _). eauto.
                ** cbn [map]. intros HN b [<-|Hb]; inversion HN as [|? ? Hni HN']; subst; [|auto].
                   apply (done_kept (map ar_ID (active l)) t); assumption.
             ++ apply always_ret; [exact Htu|]. right. exists (a :: l1), a', l2, (ar_ID a :: ids), er.
                split; [reflexivity|]. split; [rewrite El; reflexivity|]. split.
                ** cbn [map List.app]. destruct Hids as [-> | ->]; auto.
                ** cbn [map]. intros HN b [<-|Hb]; inversion HN as [|? ? Hni HN']; subst; [|auto].
                   apply (done_kept (map ar_ID (active l)) t); assumption.
        * apply always_ret; [exact Ht|]. right. exists [], a, (active l), ids, er. split; [reflexivity|]. split; [reflexivity|].
          split; [destruct Hids as [-> | ->]; auto|]. intros _ b [].
  Qed.

  (** *** the whole experiment *)
  Definition elsewhere (x : option exds_use) : Prop :=
    match x with None => True | Some u => below (lp_path (eu_folder u)) (ex_path e) = false /\ below (ex_path e) (lp_path (eu_folder u)) = false end.
  Definition same_files (s t : fs) : Prop := forall q, below q (ex_path e) = true -> length q = N -> lookup t q = lookup s q.
  Lemma same_files_trans s t u : same_files s t -> same_files t u -> same_files s u.
  Proof. intros H1 H2 q A B. rewrite H2, H1 by assumption. reflexivity. Qed.
  Lemma exds_ready_only lp s t : In t (states s (exds_ready lp)) -> t = s.
  Proof.
    unfold exds_ready, folder_exists, folder_is_locked. cbn [pbind states]. intros [H|H]; [auto|].
    destruct (exists_ s (lp_path lp)); cbn [pbind states String.eqb In] in H; intuition auto.
  Qed.
  Lemma prepare_spec x s : elsewhere x -> always (same_files s) (prepare_exds x) s (fun _ _ => True).
  Proof.
    intros Hx. destruct x as [u|]; cbn [prepare_exds]; [|apply always_ret; [intros q _ _; reflexivity|exact Logic.I]].
    apply always_bind. split.
    - intros t Ht. apply exds_ready_only in Ht. subst t. intros q _ _. reflexivity.
    - rewrite (exds_ready_only _ _ _ (states_last _ _)). destruct (snd (exec s (exds_ready (eu_folder u)))) as [[]|er]; [| |exact Logic.I].
      + split; [|exact Logic.I]. intros t Ht. apply states_bind in Ht. destruct Ht as [Ht|(b & _ & Ht)].
        * apply load_built_states in Ht. subst t. intros q _ _. reflexivity.
        * rewrite (load_built_states _ _ _ _ (states_last _ _)) in Ht. destruct Ht as [<-|[]]. intros q _ _. reflexivity.
      + eapply always_conseq; [apply build_outside| |auto]. intros t Ht q Hq _. cbn [elsewhere] in Hx. destruct Hx as (X1 & X2).
        destruct (unrelated_inside _ _ q X1 X2 Hq) as (A & B). apply Ht; assumption.
  Qed.
  Lemma sub_files_inside q name r : q = sub_path e name ++ r -> below q (ex_path e) = true.
  Proof. intros ->. unfold sub_path. rewrite <- app_assoc. apply below_app. Qed.
  Lemma datapoint_inside id : below (datapoint_file e id) (ex_path e) = true.
  Proof. eapply sub_files_inside. reflexivity. Qed.
  Lemma lock_inside ty : below (lock_file e ty) (ex_path e) = true.
  Proof. eapply sub_files_inside. reflexivity. Qed.

  Definition the_lock : path := lock_file e "experiment".
  (** only the lock file of type 'experiment', datapoints and logs of the active runs may change *)
  Definition touches (ids : list string) (s t : fs) : Prop :=
    forall q, below q (ex_path e) = true -> length q = N -> q <> the_lock ->
      (forall id, In id ids -> q <> datapoint_file e id /\ q <> log_file e id) -> lookup t q = lookup s q.

  Lemma start_spec x s : elsewhere x ->
    always (same_files s)
      (mkdirs (ex_path e) ;;; locked <~ ex_is_locked e "experiment" ;;
       if locked : bool then Raise LockedErr else
       subfolder e "algorithm_run_logs" ;;; subfolder e "algorithm_run_datapoints" ;;; prepare_exds x) s
      (fun t r => (forall a, r = Ok a -> lookup s the_lock = None) /\ (lookup s the_lock <> None -> r = Err LockedErr \/ r = Err OSErr)).
  Proof.
    intros Hx. apply always_bind. eapply always_conseq; [apply mkdirs_spec| |].
    - intros t Ht q _ L. apply Ht. destruct (below (ex_path e) q) eqn:B; [|reflexivity]. apply below_length in B. unfold N in L. lia.
    - intros t r Ht0 Hr. assert (Ht : same_files s t).
      { intros q _ L. apply Ht0. destruct (below (ex_path e) q) eqn:B; [|reflexivity]. apply below_length in B. unfold N in L. lia. }
      clear Ht0. destruct Hr as [(-> & _)| ->]; [|split; [discriminate|auto]].
      apply always_bind. eapply always_conseq; [apply is_locked_spec; reflexivity| |].
      + intros u Hu. eapply same_files_trans; [exact Ht|]. intros q _ L. apply Hu, L.
      + intros u r Hu0 Hr. assert (Hu : same_files s u) by (eapply same_files_trans; [exact Ht|]; intros q _ L; apply Hu0, L).
        clear Hu0. destruct Hr as [(b & -> & Hb & _)| ->]; [|split; [discriminate|auto]].
        assert (Hl : has_lock e t "experiment" <-> lookup s the_lock <> None).
        { unfold has_lock. fold the_lock. rewrite (Ht the_lock (lock_inside _) (lock_file_length _ _)). reflexivity. }
        destruct b.
        * apply always_raise; [exact Hu|]. split; [discriminate|auto].
        * assert (Hnone : lookup s the_lock = None).
          { destruct (lookup s the_lock) eqn:E; [|reflexivity]. exfalso. assert (false = true) by (apply Hb, Hl; discriminate). discriminate. }
          assert (Hfin : forall (v : fs) (r : res unit), (forall a, r = Ok a -> lookup s the_lock = None) /\ (lookup s the_lock <> None -> r = Err LockedErr \/ r = Err OSErr)).
          { intros v r. split; [auto|congruence]. }
          apply always_bind. eapply always_conseq; [apply subfolder_spec| |].
          -- intros v Hv. eapply same_files_trans; [exact Hu|]. intros q _ L. apply Hv, L.
          -- intros v [p|er] Hv0 _; [|apply Hfin; assumption].
             assert (Hv : same_files s v) by (eapply same_files_trans; [exact Hu|]; intros q _ L; apply Hv0, L). clear Hv0.
             apply always_bind. eapply always_conseq; [apply subfolder_spec| |].
             ++ intros w Hw. eapply same_files_trans; [exact Hv|]. intros q _ L. apply Hw, L.
             ++ intros w [p'|er] Hw0 _; [|apply Hfin; assumption].
                assert (Hw : same_files s w) by (eapply same_files_trans; [exact Hv|]; intros q _ L; apply Hw0, L). clear Hw0.
                eapply always_conseq; [apply prepare_spec, Hx| |].
                ** intros y Hy. eapply same_files_trans; eauto.
                ** intros y r _ _. apply Hfin. exact y.
  Qed.

  Lemma run_experiment_spec x l s : elsewhere x ->
    let ids := map ar_ID (active l) in
    always (fun t => touches ids s t /\
                     (lookup t the_lock = lookup s the_lock \/
                      (lookup s the_lock = None /\ lock_after o = true /\ (forall a, In a (active l) -> exists mb, ar_outcome a = Ok mb) /\
                       (NoDup ids -> forall a, In a (active l) -> done t a))))
      (run_experiment e o x l) s
      (fun t r => exists started out, r = Ok (started, out) /\
         match out with
         | Ok _ => lookup s the_lock = None /\ started = ids /\ (forall a, In a (active l) -> exists mb, ar_outcome a = Ok mb) /\
                   (NoDup ids -> forall a, In a (active l) -> done t a) /\
                   (lock_after o = true -> lookup t the_lock <> None /\ folders_to t (sub_path e "locks")) /\
                   (lock_after o = false -> lookup t the_lock = None)
         | Err er => (started = [] /\ lookup t the_lock = lookup s the_lock /\ same_files s t /\
                      (lookup s the_lock <> None -> er = LockedErr \/ er = OSErr)) \/
                     (lookup s the_lock = None /\ lookup t the_lock = None /\
                      exists l1 a l2, active l = l1 ++ a :: l2 /\ (started = map ar_ID l1 \/ started = map ar_ID (l1 ++ [a])) /\
                                      (NoDup ids -> forall b, In b l1 -> done t b)) \/
                     (lookup s the_lock = None /\ started = ids /\ er = OSErr /\ lock_after o = true /\ (NoDup ids -> forall a, In a (active l) -> done t a))
         end).
  Proof.
    intros Hx ids. unfold run_experiment. apply always_bind, always_attempt.
    assert (Hsf : forall t, same_files s t -> touches ids s t /\ lookup t the_lock = lookup s the_lock).
    { intros t Ht. split; [intros q A B _ _; apply Ht; assumption|]. apply Ht; [apply lock_inside|apply lock_file_length]. }
    eapply always_conseq; [apply start_spec, Hx| |].
    - intros t Ht. destruct (Hsf t Ht). auto.
    - intros t r Ht (R1 & R2). destruct (Hsf t Ht) as (T1 & T2). destruct r as [a|er].
      2: { apply always_ret; [auto|]. exists [], (Err er). split; [reflexivity|]. left. split; [reflexivity|]. split; [assumption|].
           split; [assumption|]. intros Hl. destruct (R2 Hl) as [E|E]; inversion E; auto. }
      pose proof (R1 a eq_refl) as Hnone. rewrite Hnone in T2.
      assert (Hrun : forall u, only_runs ids t u -> touches ids s u /\ lookup u the_lock = None).
      { intros u Hu. split.
        - intros q A B C D. rewrite Hu by assumption. apply T1; assumption.
        - rewrite Hu; [assumption|apply lock_file_length|]. intros id _. split; [apply lock_not_datapoint|apply lock_not_log]. }
      apply always_bind. eapply always_conseq; [apply run_all_spec| |].
      + intros u Hu. destruct (Hrun u Hu). split; [assumption|]. left. congruence.
      + intros u r Hu H. destruct (Hrun u Hu) as (U1 & U2). fold ids in H.
        destruct H as [(-> & Ho & Hd)|(l1 & b & l2 & started & er & -> & El & Hst & Hd)].
        * destruct (lock_after o) eqn:El.
          -- apply always_bind, always_attempt. eapply always_conseq; [apply ex_lock_spec| |].
             ++ intros v Hv. assert (Hv' : forall q, length q = N -> q <> the_lock -> lookup v q = lookup u q) by (intros q L Nq; apply (Hv q); assumption).
                split.
                ** intros q A B C D. rewrite Hv' by assumption. apply U1; assumption.
                ** right. split; [assumption|]. split; [reflexivity|]. split; [assumption|]. intros HN b Hb. destruct (Hd HN b Hb) as (mb & E1 & E2).
                   exists mb. split; [assumption|]. intros Hs. unfold saved. rewrite Hv'; [apply E2, Hs|apply datapoint_file_length|].
                   intros Eq. symmetry in Eq. apply lock_not_datapoint in Eq. exact Eq.
             ++ intros v r Hv Hr.
                assert (Hv' : forall q, length q = N -> q <> the_lock -> lookup v q = lookup u q) by (intros q L Nq; apply (Hv q); assumption).
                assert (V1 : touches ids s v) by (intros q A B C D; rewrite Hv' by assumption; apply U1; assumption).
                assert (V2 : NoDup ids -> forall b, In b (active l) -> done v b).
                { intros HN b Hb. destruct (Hd HN b Hb) as (mb & E1 & E2).
                  exists mb. split; [assumption|]. intros Hs. unfold saved. rewrite Hv'; [apply E2, Hs|apply datapoint_file_length|].
                  intros Eq. symmetry in Eq. apply lock_not_datapoint in Eq. exact Eq. }
                destruct Hr as [(-> & Hl & Hf)| ->].
                ** apply always_ret; [split; [exact V1|right; auto]|]. exists ids, (Ok tt). split; [reflexivity|]. cbv iota.
                   split; [assumption|]. split; [reflexivity|]. split; [assumption|]. split; [assumption|]. split; [intros _; split; [exact Hl|exact Hf]|discriminate].
                ** apply always_ret; [split; [exact V1|right; auto]|]. exists ids, (Err OSErr). split; [reflexivity|]. cbv iota. right. right. auto.
          -- apply always_ret; [split; [assumption|left; congruence]|]. exists ids, (Ok tt). split; [reflexivity|]. cbv iota.
             split; [assumption|]. split; [reflexivity|]. split; [assumption|]. split; [assumption|]. split; [discriminate|auto].
        * apply always_ret; [split; [assumption|left; congruence]|]. exists started, (Err er). split; [reflexivity|]. cbv iota.
          right. left. split; [assumption|]. split; [assumption|]. exists l1, b, l2. auto.
  Qed.
End Run.
