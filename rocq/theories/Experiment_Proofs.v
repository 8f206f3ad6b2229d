(** Locks of experiments, and experiment runs. *)
From Coq Require Import String.
From Verif Require Import Base Matrix_Model Text_Model FS_Model FS_Proofs Split_Model Storage_Model Storage_Spec Storage_Proofs Exds_Proofs Exds_Success Experiment_Model.
Open Scope string_scope.
Open Scope list_scope.

(** *** generalities *)
Lemma attempt_exec {A} (m : prog A) : forall s, exec s (attempt m) = (fst (exec s m), Ok (snd (exec s m))).
Proof. induction m; intros s; cbn [attempt exec fst snd]; auto. Qed.
Lemma attempt_states {A} (m : prog A) : forall s, states s (attempt m) = states s m.
Proof. induction m; intros s; cbn [attempt states]; try reflexivity; f_equal; auto. Qed.
Lemma always_attempt {A} I (m : prog A) s (Q : fs -> res (res A) -> Prop) :
  always I m s (fun t r => Q t (Ok r)) -> always I (attempt m) s Q.
Proof. intros (H1 & H2). split; [rewrite attempt_states; exact H1|]. rewrite attempt_exec. exact H2. Qed.

Lemma mkdirs_noop p s : (forall q, q <> [] -> below p q = true -> lookup s q = Some Dir) ->
  exec s (mkdirs p) = (s, Ok tt) /\ forall t, In t (states s (mkdirs p)) -> t = s.
Proof.
  intros Hd. unfold mkdirs.
  assert (H : forall ps, (forall q, In q ps -> q <> [] /\ below p q = true) -> exec s (mkdir_all ps) = (s, Ok tt) /\ forall t, In t (states s (mkdir_all ps)) -> t = s).
  { induction ps as [|q ps IH]; intros H; cbn [mkdir_all exec states]; [split; [reflexivity|]; intros t [<-|[]]; reflexivity|].
    destruct (H q (or_introl eq_refl)) as (H1 & H2).
    assert (E : do_mkdir s q = (s, true)) by (unfold do_mkdir, is_dir; rewrite (Hd q H1 H2); destruct q; reflexivity).
    rewrite E. cbn [fst snd]. destruct IH as (I1 & I2); [intros r Hr; apply H; right; assumption|].
    split; [assumption|]. intros t [<-|Ht]; auto. }
  apply H. intros q Hq. apply prefixes_spec, Hq.
Qed.
(** folders all the way *)
Definition folders_to (s : fs) (p : path) : Prop := forall q, q <> [] -> below p q = true -> lookup s q = Some Dir.

Lemma append_inj_r a b c : String.append a c = String.append b c -> a = b.
Proof.
  revert b. induction a as [|x a IH]; intros b E; destruct b as [|y b]; cbn [String.append] in E; [reflexivity| | |].
  - exfalso. apply (f_equal String.length) in E. cbn [String.length] in E.
    assert (String.length c < String.length (String.append b c) + 1) as L; [|lia].
    clear. induction b; cbn [String.append String.length]; lia.
  - exfalso. apply (f_equal String.length) in E. cbn [String.length] in E.
    assert (String.length c < String.length (String.append a c) + 1) as L; [|lia].
    clear. induction a; cbn [String.append String.length]; lia.
  - inversion E as [[E1 E2]]. f_equal. apply IH, E2.
Qed.
Lemma append_inj_l a b c : String.append c a = String.append c b -> a = b.
Proof. induction c as [|x c IH]; cbn [String.append]; intros E; [exact E|]. inversion E; auto. Qed.

Definition type_of (ty : string) : string := if String.eqb ty "" then default_lock_type else ty.
Lemma type_of_idem ty : type_of (type_of ty) = type_of ty.
Proof. unfold type_of. destruct (String.eqb ty "") eqn:E; [reflexivity|]. rewrite E. reflexivity. Qed.
Lemma type_of_nonempty ty : String.eqb (type_of ty) "" = false.
Proof. unfold type_of. destruct (String.eqb ty "") eqn:E; [reflexivity|exact E]. Qed.

Section Exp.
  Variable e : experiment.
  Let N := length (ex_path e) + 3.

  Lemma sub_path_length name : length (sub_path e name) = length (ex_path e) + 2.
  Proof. unfold sub_path. rewrite app_length. reflexivity. Qed.
  Lemma lock_file_length ty : length (lock_file e ty) = N.
  Proof. unfold lock_file. rewrite app_length, sub_path_length. cbn [length]. unfold N. lia. Qed.
  Lemma datapoint_file_length id : length (datapoint_file e id) = N.
  Proof. unfold datapoint_file. rewrite app_length, sub_path_length. cbn [length]. unfold N. lia. Qed.
  Lemma log_file_length id : length (log_file e id) = N.
  Proof. unfold log_file. rewrite app_length, sub_path_length. cbn [length]. unfold N. lia. Qed.
  Lemma datapoint_file_inj i j : datapoint_file e i = datapoint_file e j -> i = j.
  Proof. unfold datapoint_file. intros E. apply app_inv_head in E. inversion E as [E1]. eapply append_inj_r, E1. Qed.
  Lemma datapoint_not_log i j : datapoint_file e i <> log_file e j.
  Proof. unfold datapoint_file, log_file, sub_path. rewrite <- !app_assoc. intros E. apply app_inv_head in E. discriminate. Qed.
  Lemma lock_not_datapoint ty j : lock_file e ty <> datapoint_file e j.
  Proof. unfold datapoint_file, lock_file, sub_path. rewrite <- !app_assoc. intros E. apply app_inv_head in E. discriminate. Qed.
  Lemma lock_not_log ty j : lock_file e ty <> log_file e j.
  Proof. unfold log_file, lock_file, sub_path. rewrite <- !app_assoc. intros E. apply app_inv_head in E. discriminate. Qed.
  Lemma long_not_prefix p q : length q = N -> length p < N -> below p q = false.
  Proof. intros H1 H2. destruct (below p q) eqn:E; [|reflexivity]. apply below_length in E. lia. Qed.

  Lemma subfolder_spec name s :
    always (fun t => forall q, (length q = N -> lookup t q = lookup s q) /\ grown s t q) (subfolder e name) s
      (fun t r => (r = Ok (sub_path e name) /\ folders_to t (sub_path e name)) \/ r = Err OSErr).
  Proof.
    unfold subfolder. apply always_bind. eapply always_conseq; [apply mkdirs_spec| |].
    - intros t H q. destruct (H q) as (H1 & H2). split; [|assumption]. intros L. apply H1, long_not_prefix; [assumption|].
      rewrite sub_path_length. unfold N. lia.
    - intros t r Ht [(-> & HD)| ->]; [|auto]. apply always_ret.
      + intros q. destruct (Ht q) as (H1 & H2). split; [|assumption]. intros L. apply H1, long_not_prefix; [assumption|].
        rewrite sub_path_length. unfold N. lia.
      + left. split; [reflexivity|exact HD].
  Qed.
  Lemma subfolder_noop name s : folders_to s (sub_path e name) ->
    exec s (subfolder e name) = (s, Ok (sub_path e name)) /\ forall t, In t (states s (subfolder e name)) -> t = s.
  Proof.
    intros H. destruct (mkdirs_noop (sub_path e name) s H) as (M1 & M2). unfold subfolder. split.
    - rewrite exec_bind, M1. reflexivity.
    - intros t Ht. apply states_bind in Ht. destruct Ht as [Ht|(a & _ & Ht)]; [auto|]. rewrite M1 in Ht. cbn [fst] in Ht. destruct Ht as [<-|[]]. reflexivity.
  Qed.

  Definition has_lock (s : fs) (ty : string) : Prop := lookup s (lock_file e ty) <> None.
  Lemma exists_spec s p : p <> [] -> exists_ s p = match lookup s p with Some _ => true | None => false end.
  Proof. destruct p; [congruence|reflexivity]. Qed.
  Lemma lock_file_nonempty ty : lock_file e ty <> [].
  Proof. intros E. apply (f_equal (@length _)) in E. rewrite lock_file_length in E. unfold N in E. cbn [length] in E. lia. Qed.

  Lemma is_locked_spec ty s : String.eqb ty "" = false ->
    always (fun t => forall q, (length q = N -> lookup t q = lookup s q) /\ grown s t q) (ex_is_locked e ty) s
      (fun t r => (exists b, r = Ok b /\ (b = true <-> has_lock s ty) /\ folders_to t (sub_path e "locks")) \/ r = Err OSErr).
  Proof.
    intros Hty. unfold ex_is_locked. rewrite Hty. unfold ex_get_lock. apply always_bind. apply always_bind.
    eapply always_conseq; [apply subfolder_spec|auto|]. intros t r Ht [(-> & HD)| ->]; [|auto].
    apply always_ret; [exact Ht|]. eapply always_step; [reflexivity|exact Ht|].
    apply always_ret; [exact Ht|]. left. eexists. split; [reflexivity|]. split; [|exact HD].
    rewrite exists_spec by apply lock_file_nonempty. rewrite (proj1 (Ht _) (lock_file_length ty)). unfold has_lock.
    destruct (lookup s (lock_file e ty)); split; congruence.
  Qed.
  Lemma is_locked_run ty s : String.eqb ty "" = false -> folders_to s (sub_path e "locks") ->
    exists b, exec s (ex_is_locked e ty) = (s, Ok b) /\ (b = true <-> has_lock s ty) /\ (forall t, In t (states s (ex_is_locked e ty)) -> t = s).
  Proof.
    intros Hty Hd. destruct (subfolder_noop "locks" s Hd) as (M1 & M2).
    destruct (is_locked_spec ty s Hty) as (_ & HQ).
    assert (E : exec s (ex_is_locked e ty) = (s, Ok (exists_ s (lock_file e ty)))).
    { unfold ex_is_locked. rewrite Hty. unfold ex_get_lock. rewrite !exec_bind, M1. reflexivity. }
    rewrite E in HQ. cbn [fst snd] in HQ. destruct HQ as [(b & Eb & Hb & _)|?]; [|discriminate]. inversion Eb; subst b.
    eexists. split; [exact E|]. split; [assumption|]. intros t Ht. unfold ex_is_locked in Ht. rewrite Hty in Ht. unfold ex_get_lock in Ht.
    apply states_bind in Ht. rewrite exec_bind, M1 in Ht. cbn [exec fst snd] in Ht. destruct Ht as [Ht|(p & _ & Ht)].
    - apply states_bind in Ht. rewrite M1 in Ht. cbn [fst snd] in Ht. destruct Ht as [Ht|(a & _ & Ht)]; [auto|]. destruct Ht as [<-|[]]. reflexivity.
    - cbn [states In] in Ht. intuition auto.
  Qed.
  Definition any_lock (s : fs) : Prop := exists name, prefix "locked_" name = true /\ lookup s (sub_path e "locks" ++ [name]) <> None.
  Lemma is_locked_any_run s : folders_to s (sub_path e "locks") ->
    exists b, exec s (ex_is_locked e "") = (s, Ok b) /\ (b = true <-> any_lock s) /\ (forall t, In t (states s (ex_is_locked e "")) -> t = s).
  Proof.
    intros Hd. destruct (subfolder_noop "locks" s Hd) as (M1 & M2). unfold ex_is_locked, ex_get_locks. cbn [String.eqb].
    eexists. rewrite !exec_bind, M1. cbn [exec]. split; [reflexivity|]. split.
    - destruct (names_in s (sub_path e "locks") "locked_") as [|x l] eqn:E.
      + split; [discriminate|]. intros (name & Hn & Hl). rewrite names_in_nil in E. rewrite (E _ Hn) in Hl. congruence.
      + split; [intros _|reflexivity]. assert (In x (names_in s (sub_path e "locks") "locked_")) as Hin by (rewrite E; left; reflexivity).
        apply names_in_spec in Hin. exists x. tauto.
    - intros t Ht. apply states_bind in Ht. destruct Ht as [Ht|(a & _ & Ht)].
      + apply states_bind in Ht. rewrite M1 in Ht. cbn [fst snd states In] in Ht. destruct Ht as [Ht|(a & _ & Ht)]; [auto|]. intuition auto.
      + rewrite exec_bind, M1 in Ht. cbn [fst snd states exec In] in Ht. intuition auto.
  Qed.
  Lemma is_locked_any_spec s :
    always (fun t => forall q, (length q = N -> lookup t q = lookup s q) /\ grown s t q) (ex_is_locked e "") s
      (fun t r => (exists b, r = Ok b /\ (b = true <-> any_lock s)) \/ r = Err OSErr).
  Proof.
    unfold ex_is_locked, ex_get_locks. cbn [String.eqb]. apply always_bind, always_bind.
    eapply always_conseq; [apply subfolder_spec|auto|]. intros t r Ht [(-> & HD)| ->]; [|auto].
    eapply always_step; [reflexivity|exact Ht|]. apply always_ret; [exact Ht|]. apply always_ret; [exact Ht|].
    left. eexists. split; [reflexivity|].
    assert (Hsame : forall name, lookup t (sub_path e "locks" ++ [name]) = lookup s (sub_path e "locks" ++ [name])).
    { intros name. apply Ht. rewrite app_length, sub_path_length. cbn [length]. unfold N. lia. }
    destruct (names_in t (sub_path e "locks") "locked_") as [|x l] eqn:E.
    - split; [discriminate|]. intros (name & Hn & Hl). rewrite names_in_nil in E. rewrite <- Hsame, (E _ Hn) in Hl. congruence.
    - split; [intros _|reflexivity]. assert (In x (names_in t (sub_path e "locks") "locked_")) as Hin by (rewrite E; left; reflexivity).
      apply names_in_spec in Hin. exists x. rewrite <- Hsame. tauto.
  Qed.

  (** *** locking and unlocking *)
  Definition only_lock (ty : string) (s t : fs) : Prop :=
    forall q, q <> lock_file e ty -> (length q = N -> lookup t q = lookup s q) /\ grown s t q.
  Lemma lock_file_type ty : lock_file e (type_of ty) = lock_file e ty.
  Proof. unfold lock_file. fold (type_of (type_of ty)). fold (type_of ty). rewrite type_of_idem. reflexivity. Qed.
  Lemma ex_lock_spec ty s :
    always (only_lock ty s) (ex_lock e ty) s
      (fun t r => (r = Ok tt /\ has_lock t ty /\ folders_to t (sub_path e "locks")) \/ r = Err OSErr).
  Proof.
    unfold ex_lock. fold (type_of ty). unfold only_lock, has_lock. rewrite <- (lock_file_type ty). generalize (type_of ty) (type_of_nonempty ty). clear ty. intros ty Hty.
    apply always_bind. eapply always_conseq; [apply is_locked_spec; exact Hty| |].
    - intros t Ht q _. apply Ht.
    - intros t r Ht [(b & -> & Hb & HD)| ->]; [|auto]. destruct b.
      + apply always_ret; [intros q _; apply Ht|]. left. split; [reflexivity|]. split; [|exact HD].
        rewrite (proj1 (Ht _) (lock_file_length ty)). apply Hb. reflexivity.
      + unfold ex_get_lock. apply always_bind. apply always_bind. eapply always_conseq; [apply subfolder_spec| |].
        * intros u Hu q _. destruct (Hu q) as (U1 & U2). destruct (Ht q) as (T1 & T2). split; [intros L; rewrite U1, T1 by assumption; reflexivity|eapply grown_trans; eauto].
        * intros u r Hu [(-> & HD')| ->]; [|auto].
          assert (Hu' : forall q, q <> lock_file e ty -> (length q = N -> lookup u q = lookup s q) /\ grown s u q).
          { intros q _. destruct (Hu q) as (U1 & U2). destruct (Ht q) as (T1 & T2). split; [intros L; rewrite U1, T1 by assumption; reflexivity|eapply grown_trans; eauto]. }
          apply always_ret; [exact Hu'|]. eapply always_conseq; [apply write_file_spec| |].
          -- intros v Hv q Nq. unfold grown. rewrite (Hv q Nq). apply Hu', Nq.
          -- intros v r Hv [(-> & Hw)|(-> & _)]; [left|auto]. split; [reflexivity|]. split; [rewrite Hw; discriminate|].
             intros q Hq Hb'. rewrite Hv; [apply HD'; assumption|]. intros ->. apply below_length in Hb'.
             rewrite lock_file_length, sub_path_length in Hb'. unfold N in Hb'. lia.
  Qed.
  Lemma ex_unlock_spec ty s :
    always (only_lock ty s) (ex_unlock e ty) s
      (fun t r => (r = Ok tt /\ ~ has_lock t ty /\ folders_to t (sub_path e "locks")) \/ r = Err OSErr).
  Proof.
    unfold ex_unlock. fold (type_of ty). unfold only_lock, has_lock. rewrite <- (lock_file_type ty). generalize (type_of ty) (type_of_nonempty ty). clear ty. intros ty Hty.
    apply always_bind. eapply always_conseq; [apply is_locked_spec; exact Hty| |].
    - intros t Ht q _. apply Ht.
    - intros t r Ht [(b & -> & Hb & HD)| ->]; [|auto]. destruct b.
      + unfold ex_get_lock. apply always_bind. apply always_bind. eapply always_conseq; [apply subfolder_spec| |].
        * intros u Hu q _. destruct (Hu q) as (U1 & U2). destruct (Ht q) as (T1 & T2). split; [intros L; rewrite U1, T1 by assumption; reflexivity|eapply grown_trans; eauto].
        * intros u r Hu [(-> & HD')| ->]; [|auto].
          assert (Hu' : forall q, q <> lock_file e ty -> (length q = N -> lookup u q = lookup s q) /\ grown s u q).
          { intros q _. destruct (Hu q) as (U1 & U2). destruct (Ht q) as (T1 & T2). split; [intros L; rewrite U1, T1 by assumption; reflexivity|eapply grown_trans; eauto]. }
          apply always_ret; [exact Hu'|]. unfold unlink. eapply always_step; [reflexivity|exact Hu'|].
          unfold do_unlink. destruct (lookup u (lock_file e ty)) as [[|c]|] eqn:E; cbn [fst snd]; try (apply always_raise; auto).
          assert (Hv : forall q, q <> lock_file e ty -> lookup (remove u (lock_file e ty)) q = lookup u q).
          { intros q Nq. rewrite lookup_remove. destruct (path_eqb_spec q (lock_file e ty)); [congruence|reflexivity]. }
          apply always_ret.
          -- intros q Nq. unfold grown. rewrite (Hv q Nq). apply Hu', Nq.
          -- left. split; [reflexivity|]. split; [rewrite lookup_remove, path_eqb_refl; congruence|].
             intros q Hq Hb'. rewrite Hv; [apply HD'; assumption|]. intros ->. apply below_length in Hb'.
             rewrite lock_file_length, sub_path_length in Hb'. unfold N in Hb'. lia.
      + apply always_ret; [intros q _; apply Ht|]. left. split; [reflexivity|]. split; [|exact HD].
        rewrite (proj1 (Ht _) (lock_file_length ty)). intros H. apply Hb in H. discriminate.
  Qed.
End Exp.
