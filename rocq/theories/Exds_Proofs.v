(** Saving, locking and deleting experimental datasets: what every state of the disk looks like. *)
From Coq Require Import String.
From Verif Require Import Base Matrix_Model Text_Model Text_Proofs FS_Model FS_Proofs Storage_Model Storage_Spec Storage_Proofs.
Open Scope string_scope.
Open Scope list_scope.

Definition stored (s : fs) (folder : path) (b : built) : Prop := forall d, In d (parts b) -> holds_matrix s folder d.

Lemma holds_files s folder d : holds_matrix s folder d <-> forall p c, In (p, c) (five (folder ++ [dm_label d]) d) -> lookup s p = Some (File c).
Proof.
  unfold holds_matrix, file_is, five. split.
  - intros (H1 & H2 & H3 & H4 & H5) p c Hin. cbn [In] in Hin.
    destruct Hin as [E|[E|[E|[E|[E|[]]]]]]; inversion E; subst; assumption.
  - intros H. repeat split; apply H; cbn [In]; auto 10.
Qed.
Lemma holds_same s t folder d : holds_matrix s folder d ->
  (forall q, In q (matrix_files (folder ++ [dm_label d])) -> lookup t q = lookup s q) -> holds_matrix t folder d.
Proof.
  rewrite !holds_files. intros H Hs p c Hin. rewrite Hs; [apply H; assumption|].
  rewrite <- (five_fst _ d). apply (in_map fst) in Hin. exact Hin.
Qed.

Section Folder.
  Variable lp : lockable.
  Let P := lp_path lp.

  Definition same_locks (s t : fs) : Prop :=
    forall name, prefix "locked_" name = true -> lookup t (P ++ [name]) = lookup s (P ++ [name]).
  Definition same_inside (s t : fs) : Prop := forall q, below q P = true -> q <> P -> lookup t q = lookup s q.

  Lemma same_inside_refl s : same_inside s s. Proof. intros q _ _. reflexivity. Qed.
  Lemma same_inside_trans s t u : same_inside s t -> same_inside t u -> same_inside s u.
  Proof. intros H1 H2 q Hq Nq. rewrite H2, H1 by assumption. reflexivity. Qed.
  Lemma app_neq (x : string) : P ++ [x] <> P.
  Proof. intros E. apply (f_equal (@length _)) in E. rewrite app_length in E. cbn [length] in E. lia. Qed.
  Lemma same_inside_locks s t : same_inside s t -> same_locks s t.
  Proof. intros H name _. apply H; [apply below_app|apply app_neq]. Qed.
  Lemma same_locks_locked s t : same_locks s t -> (locked t P <-> locked s P).
  Proof. intros H. unfold locked. split; intros (name & Hn & Hl); exists name; (split; [assumption|]); rewrite H in * by assumption; assumption. Qed.
  Lemma same_locks_trans s t u : same_locks s t -> same_locks t u -> same_locks s u.
  Proof. intros H1 H2 n Hn. rewrite H2, H1 by assumption. reflexivity. Qed.

  Lemma file_inside label q : In q (matrix_files (P ++ [label])) -> below q P = true /\ q <> P /\ below P q = false /\ forall n, q <> P ++ [n].
  Proof.
    intros H. apply matrix_files_form in H. destruct H as (name & ->).
    assert (L : length ((P ++ [label]) ++ [name]) = S (S (length P))) by (rewrite !app_length; cbn [length]; lia).
    split; [rewrite <- app_assoc; apply below_app|]. split; [intros E; rewrite E in L; lia|]. split.
    - destruct (below P _) eqn:E; [|reflexivity]. apply below_length in E. lia.
    - intros n E. rewrite E, app_length in L. cbn [length] in L. lia.
  Qed.
  Lemma lock_outside label name q : In q (matrix_files (P ++ [label])) -> q <> P ++ [name].
  Proof. intros H. apply file_inside in H. apply H. Qed.
  Lemma files_disjoint l1 l2 q : l1 <> l2 -> In q (matrix_files (P ++ [l1])) -> ~ In q (matrix_files (P ++ [l2])).
  Proof.
    intros N H1 H2. apply matrix_files_form in H1. apply matrix_files_form in H2. destruct H1 as (a & ->). destruct H2 as (b & E).
    rewrite <- !app_assoc in E. apply app_inv_head in E. cbn [List.app] in E. congruence.
  Qed.
  Lemma stored_same s t b : stored s P b -> (forall d q, In d (parts b) -> In q (matrix_files (P ++ [dm_label d])) -> lookup t q = lookup s q) -> stored t P b.
  Proof. intros H Hs d Hd. apply (holds_same s); [apply H; assumption|]. intros q Hq. apply (Hs d); assumption. Qed.
  Lemma stored_inside s t b : stored s P b -> same_inside s t -> stored t P b.
  Proof.
    intros H Hs. apply (stored_same s); [assumption|]. intros d q _ Hq. apply file_inside in Hq.
    apply Hs; apply Hq.
  Qed.

  (** *** primitive operations of the folder *)
  Lemma ensure_spec s :
    always (same_inside s) (lp_ensure_folder lp) s (fun t r => (r = Ok tt /\ forall q, q <> [] -> below P q = true -> lookup t q = Some Dir) \/ r = Err OSErr).
  Proof.
    unfold lp_ensure_folder. fold P. eapply always_conseq; [apply mkdirs_spec| |auto].
    intros t H q Hq Nq. apply H. destruct (below P q) eqn:E; [|reflexivity]. exfalso. apply Nq.
    apply below_spec in Hq, E. destruct Hq as (a & ->). destruct E as (b & E).
    assert (length (a ++ b) = 0) as L.
    { apply (f_equal (@length _)) in E. rewrite !app_length in *. lia. }
    destruct a; [apply app_nil_r|discriminate].
  Qed.
  Lemma is_locked_any s : exists b, exec s (folder_is_locked lp "") = (s, Ok b) /\ states s (folder_is_locked lp "") = [s; s] /\ (b = true <-> locked s P).
  Proof.
    unfold folder_is_locked. cbn [String.eqb exec states]. eexists. split; [reflexivity|]. split; [reflexivity|]. fold P.
    destruct (names_in s P "locked_") as [|x l] eqn:E.
    - split; [discriminate|]. intros (name & Hn & Hl). rewrite names_in_nil in E. rewrite (E _ Hn) in Hl. congruence.
    - split; [intros _|reflexivity]. assert (In x (names_in s P "locked_")) as Hin by (rewrite E; left; reflexivity).
      apply names_in_spec in Hin. exists x. tauto.
  Qed.
  Lemma bind_locked {B} (f : bool -> prog B) s (I : fs -> Prop) Q : I s ->
    (locked s P -> always I (f true) s Q) -> (~ locked s P -> always I (f false) s Q) ->
    always I (locked <~ folder_is_locked lp "" ;; f locked) s Q.
  Proof.
    intros Hs H1 H2. apply always_bind. destruct (is_locked_any s) as (b & E1 & E2 & Hb). split.
    - rewrite E2. intros t [<-|[<-|[]]]; assumption.
    - rewrite E1. cbn [fst snd]. destruct b; [apply H1; tauto|apply H2; intuition discriminate].
  Qed.

  (** *** saving *)
  Definition no_lock_label (l : string) : Prop := prefix "locked_" l = false.
  Lemma save_dm_inside d s : no_lock_label (dm_label d) ->
    always (fun t => same_locks s t /\ forall q, below q P = true -> q <> P -> q <> P ++ [dm_label d] -> ~ In q (matrix_files (P ++ [dm_label d])) -> lookup t q = lookup s q)
      (save_dm d P) s (fun t r => r = Ok tt -> dm_final d = true /\ holds_matrix t P d).
  Proof.
    intros Hl. eapply always_conseq; [apply (save_dm_spec d P s)| |].
    - intros t Ht. assert (forall q, below q P = true -> q <> P -> q <> P ++ [dm_label d] -> ~ In q (matrix_files (P ++ [dm_label d])) -> lookup t q = lookup s q) as H.
      { intros q H1 H2 H3 H4. apply Ht; [assumption|]. destruct (below (P ++ [dm_label d]) q) eqn:E; [|reflexivity]. exfalso.
        apply below_spec in H1, E. destruct H1 as (a & ->). destruct E as (b & E). rewrite <- app_assoc in E. apply app_inv_head in E.
        destruct a as [|x a]; [apply H2, app_nil_r|]. cbn [List.app] in E. inversion E as [[E1 E2]]. destruct a; [|discriminate].
        apply H3. rewrite E1. reflexivity. }
      split; [|exact H]. intros name Hn. apply H; [apply below_app|apply app_neq| |].
      + intros E. apply app_inv_head in E. unfold no_lock_label in Hl. congruence.
      + intros Hin. apply (lock_outside _ name _ Hin). reflexivity.
    - intros t r _ [(_ & H1 & H2)|[->|(-> & _)]]; [auto|discriminate|discriminate].
  Qed.
  Definition quiet (s t : fs) : Prop := same_locks s t /\ (locked s P -> same_inside s t).
  Lemma quiet_refl s : quiet s s. Proof. split; [intros n _; reflexivity|intros _; apply same_inside_refl]. Qed.
  Lemma quiet_trans s t u : quiet s t -> quiet t u -> quiet s u.
  Proof.
    intros (H1 & H2) (H3 & H4). split; [eapply same_locks_trans; eauto|]. intros Hl. eapply same_inside_trans; [auto|].
    apply H4. apply (same_locks_locked _ _ H1). assumption.
  Qed.
  Lemma quiet_inside s t : same_inside s t -> quiet s t.
  Proof. intros H. split; [apply same_inside_locks; assumption|auto]. Qed.
  Lemma quiet_unlocked s t : ~ locked s P -> same_locks s t -> quiet s t.
  Proof. intros H1 H2. split; [assumption|]. contradiction. Qed.

  Lemma save_plain_spec m s : no_lock_label (dm_label m) ->
    always (fun t => quiet s t /\ forall label q, label <> dm_label m -> In q (matrix_files (P ++ [label])) -> lookup t q = lookup s q)
      (save_plain lp m) s (fun t r => r = Ok tt -> ~ locked s P /\ dm_final m = true /\ holds_matrix t P m).
  Proof.
    intros Hl. unfold save_plain. apply always_bind. eapply always_conseq; [apply ensure_spec| |].
    - intros t Ht. split; [apply quiet_inside; assumption|]. intros label q _ Hq. apply file_inside in Hq. apply Ht; apply Hq.
    - intros t r Ht [(-> & _)| ->]; [|discriminate]. cbn beta.
      assert (A : quiet s t /\ forall label q, label <> dm_label m -> In q (matrix_files (P ++ [label])) -> lookup t q = lookup s q).
      { split; [apply quiet_inside; assumption|]. intros label q _ Hq. apply file_inside in Hq. apply Ht; apply Hq. }
      apply bind_locked; [exact A| |].
      + intros _. apply always_raise; [exact A|discriminate].
      + intros Hu. assert (Hus : ~ locked s P) by (rewrite <- (same_locks_locked s t); [assumption|apply A]).
        eapply always_conseq; [apply (save_dm_inside m t Hl)| |].
        * intros u (Hu1 & Hu2). split; [apply (quiet_trans s t u); [apply A|]; apply quiet_unlocked; assumption|].
          intros label q Nl Hq. rewrite Hu2; [apply (proj2 A label); assumption| | | |].
          -- apply file_inside in Hq; apply Hq.
          -- apply file_inside in Hq; apply Hq.
          -- apply file_inside in Hq; apply Hq.
          -- apply files_disjoint with (l1 := label); assumption.
        * intros u r _ H Er. split; [assumption|apply H, Er].
  Qed.

  Lemma proper_no_lock b d : proper_labels b -> In d (parts b) -> no_lock_label (dm_label d).
  Proof.
    unfold proper_labels. intros H Hd. apply (in_map dm_label) in Hd. rewrite H in Hd.
    unfold part_labels in Hd. destruct (has_split b); cbn [In] in Hd; intuition (subst; try reflexivity; try contradiction).
    - rewrite <- H0. reflexivity.
    - rewrite <- H1. reflexivity.
    - rewrite <- H0. reflexivity.
    - rewrite <- H0. reflexivity.
  Qed.

  Lemma save_built_spec b s : proper_labels b ->
    always (quiet s) (save_built lp b) s (fun t r => r = Ok tt -> ~ locked s P /\ stored t P b).
  Proof.
    intros Hp. destruct b as [m|f tr te]; cbn [save_built].
    - eapply always_conseq; [apply save_plain_spec, (proper_no_lock (Plain m)); [assumption|left; reflexivity]| |].
      + intros t (H & _). exact H.
      + intros t r _ H E. destruct (H E) as (H1 & _ & H3). split; [assumption|]. intros d [<-|[]]. assumption.
    - assert (Lf : dm_label f = "dataset" /\ dm_label tr = "dataset_train" /\ dm_label te = "dataset_test").
      { unfold proper_labels in Hp. cbn in Hp. inversion Hp. auto. }
      destruct Lf as (Lf & Ltr & Lte).
      apply always_bind. eapply always_conseq; [apply save_plain_spec, (proper_no_lock (WithSplit f tr te)); [assumption|left; reflexivity]| |].
      + intros t (H & _). exact H.
      + intros s1 [[]|e] (Q1 & _) Hr; [|discriminate]. destruct (Hr eq_refl) as (Hus & _ & Hf).
        assert (Hu1 : ~ locked s1 P) by (rewrite (same_locks_locked s s1); [assumption|apply Q1]).
        apply always_bind. eapply always_conseq; [apply ensure_spec| |].
        * intros t Ht. eapply quiet_trans; [exact Q1|apply quiet_inside; exact Ht].
        * intros s2 r2 Ht [(-> & _)| ->]; [|discriminate].
          assert (Q2 : quiet s s2) by (eapply quiet_trans; [exact Q1|apply quiet_inside; exact Ht]).
          assert (Hf2 : holds_matrix s2 P f).
          { apply (holds_same s1); [assumption|]. intros q Hq. apply file_inside in Hq. apply Ht; apply Hq. }
          apply bind_locked; [exact Q2| |]; intros Hl.
          -- apply always_raise; [exact Q2|discriminate].
          -- apply always_bind. eapply always_conseq; [apply (save_dm_inside tr s2); apply (proper_no_lock (WithSplit f tr te)); [assumption|right; left; reflexivity]| |].
             ++ intros t (A1 & _). eapply quiet_trans; [exact Q2|apply quiet_unlocked; assumption].
             ++ intros s3 [[]|e] (A1 & A2) Hr3; [|discriminate]. destruct (Hr3 eq_refl) as (_ & Htr).
                assert (Q3 : quiet s s3) by (eapply quiet_trans; [exact Q2|apply quiet_unlocked; assumption]).
                assert (Hl3 : ~ locked s3 P) by (rewrite (same_locks_locked s2 s3); assumption).
                assert (Hf3 : holds_matrix s3 P f).
                { apply (holds_same s2); [assumption|]. intros q Hq. pose proof (file_inside _ _ Hq) as (F1 & F2 & F3 & F4).
                  apply A2; auto. apply files_disjoint with (l1 := dm_label f); [rewrite Lf, Ltr; discriminate|assumption]. }
                eapply always_conseq; [apply (save_dm_inside te s3); apply (proper_no_lock (WithSplit f tr te)); [assumption|right; right; left; reflexivity]| |].
                ** intros t (B1 & _). eapply quiet_trans; [exact Q3|apply quiet_unlocked; assumption].
                ** intros s4 r4 (B1 & B2) Hr4 ->. destruct (Hr4 eq_refl) as (_ & Hte). split; [assumption|].
                   intros d [<-|[<-|[<-|[]]]]; [| |assumption].
                   --- apply (holds_same s3); [assumption|]. intros q Hq. pose proof (file_inside _ _ Hq) as (F1 & F2 & F3 & F4).
                       apply B2; auto. apply files_disjoint with (l1 := dm_label f); [rewrite Lf, Lte; discriminate|assumption].
                   --- apply (holds_same s3); [assumption|]. intros q Hq. pose proof (file_inside _ _ Hq) as (F1 & F2 & F3 & F4).
                       apply B2; auto. apply files_disjoint with (l1 := dm_label tr); [rewrite Ltr, Lte; discriminate|assumption].
  Qed.

  (** *** locking and unlocking: only the lock file changes *)
  Definition the_type (ty : string) : string := if String.eqb ty "" then lp_default lp else ty.
  Lemma get_lock_form ty : exists name, prefix "locked_" name = true /\ get_lock lp ty = P ++ [name].
  Proof.
    unfold get_lock, lock_name. eexists. split; [|reflexivity].
    generalize (if String.eqb ty "" then lp_default lp else ty). intros r. cbn [String.append prefix].
    repeat (destruct (Ascii.ascii_dec _ _) as [_|N]; [|exfalso; apply N; reflexivity]). destruct r; reflexivity.
  Qed.
  Lemma lock_spec ty s :
    always (fun t => forall q, q <> get_lock lp (the_type ty) -> lookup t q = lookup s q) (lock_folder lp ty) s
      (fun t r => (r = Ok tt -> locked t P) /\ (r = Ok tt \/ r = Err OSErr)).
  Proof.
    unfold lock_folder. fold (the_type ty). generalize (the_type ty). intros ty'. apply always_bind.
    unfold folder_is_locked. destruct (String.eqb ty' "") eqn:Ety.
    - (* an empty default type: any lock counts *)
      eapply always_step; [reflexivity|auto|]. apply always_ret; [auto|].
      destruct (names_in s (lp_path lp) "locked_") as [|x l] eqn:E; cbn beta iota.
      + eapply always_conseq; [apply write_file_spec|auto|].
        intros t r _ [(-> & H)|(-> & _)]; [|split; [discriminate|auto]]. split; [|auto]. intros _.
        destruct (get_lock_form ty') as (name & Hn & En). exists name. split; [assumption|]. rewrite <- En, H. discriminate.
      + apply always_ret; [auto|]. split; [|auto]. intros _.
        assert (In x (names_in s (lp_path lp) "locked_")) as Hin by (rewrite E; left; reflexivity).
        apply names_in_spec in Hin. exists x. fold P in Hin. tauto.
    - eapply always_step; [reflexivity|auto|]. apply always_ret; [auto|].
      destruct (get_lock_form ty') as (name & Hn & En).
      destruct (exists_ s (get_lock lp ty')) eqn:E; cbn beta iota.
      + apply always_ret; [auto|]. split; [|auto]. intros _. exists name. split; [assumption|]. rewrite <- En.
        unfold exists_ in E. destruct (get_lock lp ty') eqn:G; [rewrite En in G; destruct P; discriminate|].
        destruct (lookup s (s0 :: p)); [discriminate|congruence].
      + eapply always_conseq; [apply write_file_spec|auto|].
        intros t r _ [(-> & H)|(-> & _)]; [|split; [discriminate|auto]]. split; [|auto]. intros _.
        exists name. split; [assumption|]. rewrite <- En, H. discriminate.
  Qed.
  Lemma unlock_spec ty s :
    always (fun t => forall q, q <> get_lock lp (the_type ty) -> lookup t q = lookup s q) (unlock_folder lp ty) s
      (fun t r => True).
  Proof.
    unfold unlock_folder. fold (the_type ty). generalize (the_type ty). intros ty'. apply always_bind.
    assert (H : always (fun t => forall q, q <> get_lock lp ty' -> lookup t q = lookup s q) (unlink (get_lock lp ty')) s (fun _ _ => True)).
    { unfold unlink. eapply always_step; [reflexivity|auto|]. unfold do_unlink.
      destruct (lookup s (get_lock lp ty')) as [[|c]|]; cbn [fst snd].
      - apply always_raise; auto.
      - apply always_ret; [|auto]. intros q Nq. rewrite lookup_remove. destruct (path_eqb_spec q (get_lock lp ty')); [congruence|reflexivity].
      - apply always_raise; auto. }
    assert (H' : always (fun t => forall q, q <> get_lock lp ty' -> lookup t q = lookup s q) (Ret tt) s (fun _ _ => True)) by (apply always_ret; auto).
    unfold folder_is_locked. destruct (String.eqb ty' "").
    - eapply always_step; [reflexivity|auto|]. apply always_ret; [auto|].
      destruct (names_in s (lp_path lp) "locked_") as [|x l]; assumption.
    - eapply always_step; [reflexivity|auto|]. apply always_ret; [auto|].
      destruct (exists_ s (get_lock lp ty')); assumption.
  Qed.
  Lemma stored_lock_only s t b ty : stored s P b -> (forall q, q <> get_lock lp ty -> lookup t q = lookup s q) -> stored t P b.
  Proof.
    intros H Ht. apply (stored_same s); [assumption|]. intros d q _ Hq. apply Ht.
    destruct (get_lock_form ty) as (name & _ & ->). apply (lock_outside _ name _ Hq).
  Qed.

  (** *** deleting *)
  Lemma delete_tree_spec p s : ~ locked s P ->
    always (fun t => ~ locked t P) (rmtree p) s (fun _ _ => True).
  Proof.
    intros Hu. eapply always_conseq; [apply rmtree_spec| |auto].
    intros t Ht (name & Hn & Hl). apply Hu. exists name. split; [assumption|].
    destruct (Ht (P ++ [name])) as (_ & [E|E]); congruence.
  Qed.
  Lemma delete_folder_spec s :
    always (fun t => (locked s P -> t = s) /\ (~ locked s P -> ~ locked t P)) (delete_folder lp) s (fun t r => locked s P -> r = Err LockedErr).
  Proof.
    unfold delete_folder, folder_exists. cbn [pbind]. eapply always_step; [reflexivity|auto|].
    destruct (exists_ s (lp_path lp)); cbn [negb].
    - apply bind_locked; [auto| |]; intros Hl.
      + apply always_raise; auto.
      + eapply always_conseq; [apply (delete_tree_spec (lp_path lp)); exact Hl| |]; cbn beta; tauto.
    - apply always_raise; auto.
  Qed.
  Lemma delete_subfolder_spec sub s :
    always (fun t => (locked s P -> t = s) /\ (~ locked s P -> ~ locked t P)) (delete_subfolder lp sub) s (fun t r => locked s P -> r = Err LockedErr).
  Proof.
    unfold delete_subfolder. apply bind_locked; [auto| |]; intros Hl.
    - apply always_raise; auto.
    - eapply always_step; [reflexivity|auto|]. destruct (exists_ s _); cbn [negb].
      + eapply always_conseq; [apply delete_tree_spec; exact Hl| |]; cbn beta; tauto.
      + apply always_raise; [auto|]. tauto.
  Qed.

  (** *** building *)
  Lemma parts_finalize b : parts (finalize_built b) = map finalize (parts b).
  Proof. destruct b; reflexivity. Qed.
  Lemma label_finalize d : dm_label (finalize d) = dm_label d.
  Proof. unfold finalize. destruct (dm_final d); reflexivity. Qed.
  Lemma proper_finalize b : proper_labels b -> proper_labels (finalize_built b).
  Proof.
    unfold proper_labels. rewrite parts_finalize, map_map. intros H.
    replace (has_split (finalize_built b)) with (has_split b) by (destruct b; reflexivity). rewrite <- H.
    apply map_ext. intros d. apply label_finalize.
  Qed.
  Lemma holds_finalize s folder d : holds_matrix s folder (finalize d) <-> holds_matrix s folder d.
  Proof. unfold finalize. destruct (dm_final d); reflexivity. Qed.
  Lemma stored_finalize s b : stored s P (finalize_built b) <-> stored s P b.
  Proof.
    unfold stored. rewrite parts_finalize. split.
    - intros H d Hd. apply holds_finalize, H, in_map, Hd.
    - intros H d Hd. apply in_map_iff in Hd. destruct Hd as (d' & <- & Hd). apply holds_finalize, H, Hd.
  Qed.
  Lemma build_spec do_save auto_lock source s : (forall b, source = Ok b -> proper_labels b) ->
    always (fun t => quiet s t \/ (~ locked s P /\ exists b, source = Ok b /\ stored t P b)) (build lp do_save auto_lock source) s
      (fun t r => r = Ok tt -> do_save = true -> ~ locked s P /\ exists b, source = Ok b /\ stored t P b /\ (auto_lock = true -> locked t P)).
  Proof.
    intros Hp. unfold build. destruct source as [b|e]; cbn [lift pbind].
    2: { apply always_raise; [left; apply quiet_refl|discriminate]. }
    destruct do_save.
    2: { apply always_ret; [left; apply quiet_refl|discriminate]. }
    unfold finalize_and_save. apply always_bind. eapply always_conseq; [apply save_built_spec, proper_finalize, Hp; reflexivity| |].
    - intros t H. left. exact H.
    - intros t [[]|e] Ht Hr; [|discriminate]. destruct (Hr eq_refl) as (Hu & Hs). apply (proj1 (stored_finalize _ _)) in Hs.
      destruct auto_lock.
      + eapply always_conseq; [apply lock_spec| |].
        * intros u Hu'. right. split; [assumption|]. exists b. split; [reflexivity|]. apply (stored_lock_only t u b _ Hs Hu').
        * intros u r Hu' (H1 & _) E _. split; [assumption|]. exists b. split; [reflexivity|]. split; [apply (stored_lock_only t u b _ Hs Hu')|auto].
      + apply always_ret; [left; exact Ht|]. intros _ _. split; [assumption|]. exists b. split; [reflexivity|]. split; [assumption|discriminate].
  Qed.
  Lemma load_built_states w s t : In t (states s (load_built lp w)) -> t = s.
  Proof.
    unfold load_built. intros H. apply states_bind in H. destruct H as [H|(f & E & H)]; [apply load_dm_states in H; assumption|].
    rewrite (load_dm_states _ _ _ _ _ (states_last _ _)) in H.
    destruct w; [|destruct H as [H|[]]; auto].
    apply states_bind in H. destruct H as [H|(tr & E2 & H)]; [apply load_dm_states in H; assumption|].
    rewrite (load_dm_states _ _ _ _ _ (states_last _ _)) in H.
    apply states_bind in H. destruct H as [H|(te & E3 & H)]; [apply load_dm_states in H; assumption|].
    rewrite (load_dm_states _ _ _ _ _ (states_last _ _)) in H. destruct H as [H|[]]; auto.
  Qed.
End Folder.
