(** Saving and loading a dataset matrix. *)
From Coq Require Import String.
From Verif Require Import Base Matrix_Model Text_Model Text_Proofs FS_Model FS_Proofs Storage_Model Storage_Spec.
Open Scope string_scope.
Open Scope list_scope.

Fixpoint write_all (l : list (path * content)) : prog unit :=
  match l with
  | [] => Ret tt
  | (p, c) :: l' => match l' with [] => write_file p c | _ => write_file p c ;;; write_all l' end
  end.
Lemma write_all_spec l : forall s, NoDup (map fst l) ->
  always (fun t => forall q, ~ In q (map fst l) -> lookup t q = lookup s q) (write_all l) s
    (fun t r => (r = Ok tt /\ forall p c, In (p, c) l -> lookup t p = Some (File c)) \/ r = Err OSErr).
Proof.
  induction l as [|(p, c) l IH]; intros s HN; cbn [write_all].
  - apply always_ret; [auto|]. left. split; [reflexivity|intros p c []].
  - destruct l as [|pc l].
    + eapply always_conseq; [apply write_file_spec| |].
      * intros t Ht q Nq. apply Ht. intros ->. apply Nq. left. reflexivity.
      * intros t r _ [(-> & H)|(-> & _)]; [left|right; reflexivity]. split; [reflexivity|].
        intros p' c' [E|[]]. inversion E; subst. assumption.
    + inversion HN as [|? ? Hp HN']; subst. cbn [fst] in Hp.
      apply always_bind. eapply always_conseq; [apply write_file_spec| |].
      * intros t Ht q Nq. apply Ht. intros ->. apply Nq. left. reflexivity.
      * intros t r Ht [(-> & H)|(-> & _)]; [|right; reflexivity].
        eapply always_conseq; [apply (IH t HN')| |].
        -- intros u Hu q Nq. rewrite Hu by (intros Hin; apply Nq; right; exact Hin). apply Ht.
           intros ->. apply Nq. left. reflexivity.
        -- intros u r Hu [(-> & Hw)| ->]; [left|right; reflexivity]. split; [reflexivity|].
           intros p' c' [E|Hin]; [|apply Hw, Hin]. inversion E; subst. rewrite Hu by exact Hp. assumption.
Qed.
Lemma write_all_ok l : forall s, NoDup (map fst l) ->
  (forall p, In p (map fst l) -> p <> [] /\ lookup s p <> Some Dir /\ is_dir s (parent p) = true /\ ~ In (parent p) (map fst l)) ->
  snd (exec s (write_all l)) = Ok tt.
Proof.
  induction l as [|(p, c) l IH]; intros s HN H; cbn [write_all]; [reflexivity|].
  destruct (H p (or_introl eq_refl)) as (H1 & H2 & H3 & _).
  pose proof (write_file_ok p c s H1 H2 H3) as Hw. destruct l as [|pc l]; [exact Hw|].
  rewrite exec_bind. destruct (write_file_spec p c s) as (HI & _). specialize (HI _ (states_last _ _)). cbn beta in HI.
  destruct (exec s (write_file p c)) as (s' & r). cbn [fst snd] in Hw, HI. subst r.
  inversion HN as [|? ? Hp HN']; subst. cbn [fst] in Hp. apply IH; [assumption|].
  intros q Hq. destruct (H q (or_intror Hq)) as (Q1 & Q2 & Q3 & Q4).
  assert (q <> p) by (intros ->; contradiction).
  split; [assumption|]. split; [rewrite HI by assumption; assumption|]. split; [|intros Hin; apply Q4; right; exact Hin].
  unfold is_dir in *. destruct (parent q) eqn:Eq; [reflexivity|]. rewrite HI; [assumption|].
  intros E. apply Q4. left. cbn [fst]. congruence.
Qed.

Definition five (mp : path) (d : dmatrix) : list (path * content) :=
  [(mp ++ ["X.mtx"], CMatrix (sm_ncols (dm_X d)) (sm_rows (dm_X d)));
   (mp ++ ["Y.mtx"], CMatrix (sm_ncols (dm_Y d)) (sm_rows (dm_Y d)));
   (mp ++ ["row_labels.txt"], CText (write_labels (dm_row_labels d)));
   (mp ++ ["column_labels_X.txt"], CText (write_labels (dm_labels_X d)));
   (mp ++ ["column_labels_Y.txt"], CText (write_labels (dm_labels_Y d)))].
Lemma five_fst mp d : map fst (five mp d) = matrix_files mp. Proof. reflexivity. Qed.
Lemma save_dm_eq d folder : dm_final d = true ->
  save_dm d folder = (mkdirs (folder ++ [dm_label d]) ;;; write_all (five (folder ++ [dm_label d]) d)).
Proof. intros H. unfold save_dm. rewrite H. reflexivity. Qed.
Lemma save_dm_not_final d folder s : dm_final d = false -> exec s (save_dm d folder) = (s, Err MatrixNotFinalized) /\ states s (save_dm d folder) = [s].
Proof. intros H. unfold save_dm. rewrite H. split; reflexivity. Qed.
Lemma matrix_files_NoDup mp : NoDup (matrix_files mp).
Proof.
  change (matrix_files mp) with (map (fun n => mp ++ [n]) ["X.mtx"; "Y.mtx"; "row_labels.txt"; "column_labels_X.txt"; "column_labels_Y.txt"]).
  apply FinFun.Injective_map_NoDup.
  - intros x y E. apply app_inv_head in E. congruence.
  - repeat (constructor; [cbn [In]; intros Hin; intuition discriminate|]). constructor.
Qed.
Lemma matrix_files_form mp q : In q (matrix_files mp) -> exists name, q = mp ++ [name].
Proof. unfold matrix_files. cbn [In]. intros H. repeat destruct H as [<-|H]; try (eexists; reflexivity). destruct H. Qed.
Lemma below_length p q : below p q = true -> length q <= length p.
Proof. rewrite below_spec. intros (r & ->). rewrite app_length. lia. Qed.

Lemma save_dm_spec d folder s :
  let mp := folder ++ [dm_label d] in
  always (fun t => forall q, ~ In q (matrix_files mp) -> grown s t q /\ (below mp q = false -> lookup t q = lookup s q)) (save_dm d folder) s
    (fun t r => (r = Ok tt /\ dm_final d = true /\ holds_matrix t folder d) \/ r = Err OSErr \/ (r = Err MatrixNotFinalized /\ t = s)).
Proof.
  intros mp. destruct (dm_final d) eqn:Hf.
  - rewrite save_dm_eq by assumption. fold mp. apply always_bind.
    eapply always_conseq; [apply (mkdirs_spec mp s)| |].
    + intros t H q _. destruct (H q). auto.
    + intros t r Ht [(-> & _)| ->]; [|auto].
      eapply always_conseq; [apply write_all_spec; rewrite five_fst; apply matrix_files_NoDup| |].
      * intros u Hu q Nq. rewrite five_fst in Hu. destruct (Ht q) as (H1 & H2). unfold grown. rewrite (Hu q Nq). split; [exact H2|exact H1].
      * intros u r _ [(-> & H)| ->]; [left|auto]. split; [reflexivity|]. split; [reflexivity|].
        unfold holds_matrix, file_is. fold mp. repeat split; apply H; unfold five; cbn [In]; auto 10.
  - destruct (save_dm_not_final d folder s Hf) as (E1 & E2). split.
    + rewrite E2. intros t [<-|[]] q _. split; [apply grown_refl|reflexivity].
    + rewrite E1. auto.
Qed.
Lemma parent_app (p : path) x : parent (p ++ [x]) = p.
Proof. unfold parent. apply removelast_last. Qed.
Lemma save_dm_ok d folder s :
  dm_final d = true -> writable s (folder ++ [dm_label d]) -> snd (exec s (save_dm d folder)) = Ok tt.
Proof.
  intros Hf (W1 & W2). set (mp := folder ++ [dm_label d]) in *. rewrite save_dm_eq by assumption. fold mp. rewrite exec_bind.
  pose proof (mkdirs_ok mp s W1) as Hok. destruct (mkdirs_spec mp s) as (HI & HQ).
  specialize (HI _ (states_last _ _)). cbn beta in HI.
  destruct (exec s (mkdirs mp)) as (s' & r). cbn [fst snd] in *. subst r.
  destruct HQ as [(_ & HD)|?]; [|discriminate].
  apply write_all_ok; rewrite five_fst; [apply matrix_files_NoDup|].
  intros p Hp. pose proof (matrix_files_form _ _ Hp) as (name & ->). rewrite parent_app.
  assert (mp <> []) as Hmp by (unfold mp; destruct folder; discriminate).
  split; [destruct mp; discriminate|]. split; [|split].
  - destruct (HI (mp ++ [name])) as (H1 & _). rewrite H1; [apply W2; assumption|].
    destruct (below mp (mp ++ [name])) eqn:E; [|reflexivity]. apply below_length in E. rewrite app_length in E. cbn [length] in E. lia.
  - unfold is_dir. rewrite (HD mp Hmp (below_refl _)). destruct mp; reflexivity.
  - intros Hin. apply matrix_files_form in Hin. destruct Hin as (name' & E).
    apply (f_equal (@length _)) in E. rewrite app_length in E. cbn [length] in E. lia.
Qed.

Lemma do_read_file s p c : file_is s p c -> do_read s p = Some c.
Proof. unfold file_is, do_read. intros ->. reflexivity. Qed.
(** what load finds *)
Definition loaded (label : string) (was_final : bool) (d : dmatrix) : dmatrix :=
  finalize (DMat label (SMat CSR (sm_ncols (dm_X d)) (sm_rows (dm_X d))) (SMat CSR (sm_ncols (dm_Y d)) (sm_rows (dm_Y d)))
     (read_labels (write_labels (dm_row_labels d))) (read_labels (write_labels (dm_labels_X d)))
     (read_labels (write_labels (dm_labels_Y d))) was_final).
Lemma load_dm_exec d folder was_final s : holds_matrix s folder d ->
  exec s (load_dm (dm_label d) was_final folder) = (s, Ok (loaded (dm_label d) was_final d)).
Proof.
  intros (H1 & H2 & H3 & H4 & H5).
  unfold load_dm, load_matrix, load_labels. cbn [pbind exec].
  change (String.append "X" ".mtx") with "X.mtx". change (String.append "Y" ".mtx") with "Y.mtx".
  rewrite (do_read_file _ _ _ H1). cbn [pbind exec].
  rewrite (do_read_file _ _ _ H2). cbn [pbind exec].
  rewrite (do_read_file _ _ _ H3). cbn [pbind exec].
  rewrite (do_read_file _ _ _ H4). cbn [pbind exec].
  rewrite (do_read_file _ _ _ H5). cbn [pbind exec].
  reflexivity.
Qed.
(** loading reads only *)
Definition read_only {A} (m : prog A) : Prop := forall s t, In t (states s m) -> t = s.
Lemma load_dm_states label was_final folder s t : In t (states s (load_dm label was_final folder)) -> t = s.
Proof.
  unfold load_dm, load_matrix, load_labels. cbn [pbind states].
  intros [H|H]; [auto|].
  destruct (do_read s _) as [[]|] in H; cbn [pbind states] in H; destruct H as [H|H]; auto; try destruct H.
  destruct (do_read s _) as [[]|] in H; cbn [pbind states] in H; destruct H as [H|H]; auto; try destruct H.
  destruct (do_read s _) as [[]|] in H; cbn [pbind states] in H; destruct H as [H|H]; auto; try destruct H.
  destruct (do_read s _) as [[]|] in H; cbn [pbind states] in H; destruct H as [H|H]; auto; try destruct H.
  destruct (do_read s _) as [[]|] in H; cbn [pbind states] in H; destruct H as [H|H]; auto; try destruct H.
Qed.
