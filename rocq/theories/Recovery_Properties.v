(** C50: an interrupted build can be repeated. *)
From Coq Require Import String.
From Verif Require Import Base Matrix_Model Text_Model Text_Proofs FS_Model FS_Proofs Storage_Model Storage_Spec Storage_Proofs Exds_Proofs Exds_Success Exds_Properties.
Open Scope string_scope.
Open Scope list_scope.

Lemma write_file_no_dir p c s : always (fun t => forall q, lookup t q = Some Dir -> lookup s q = Some Dir) (write_file p c) s (fun _ _ => True).
Proof.
  unfold write_file. eapply always_step; [reflexivity|auto|]. unfold do_open.
  destruct (is_dir s p); cbn [fst snd]; [apply always_raise; auto|].
  destruct (is_dir s (parent p)); cbn [fst snd]; [|apply always_raise; auto].
  eapply always_step; [reflexivity| |apply always_ret; [|auto]]; intros q; rewrite ?lookup_update; destruct (path_eqb q p); try discriminate; auto.
Qed.
Lemma write_all_no_dir l : forall s, always (fun t => forall q, lookup t q = Some Dir -> lookup s q = Some Dir) (write_all l) s (fun _ _ => True).
Proof.
  induction l as [|(p, c) l IH]; intros s; cbn [write_all]; [apply always_ret; auto|].
  destruct l as [|pc l]; [apply write_file_no_dir|]. apply always_bind.
  eapply always_conseq; [apply write_file_no_dir|auto|]. intros t [[]|e] Ht _; [|exact Logic.I].
  eapply always_conseq; [apply IH| |auto]. intros u Hu q Hq. auto.
Qed.

Section Folder.
  Variable lp : lockable.
  Let P := lp_path lp.
  Definition all_writable (L : list string) (s : fs) : Prop := forall l, In l L -> writable s (P ++ [l]).

  Lemma save_dm_writable L d s : all_writable L s -> always (all_writable L) (save_dm d P) s (fun _ _ => True).
  Proof.
    intros HW. destruct (dm_final d) eqn:Hf.
    2: { destruct (save_dm_not_final d P s Hf) as (E1 & E2). split; [|exact Logic.I]. rewrite E2. intros t [<-|[]]. exact HW. }
    split; [|exact Logic.I]. intros t Ht l Hl. destruct (string_dec l (dm_label d)) as [->|N].
    - split.
      + intros q c Hb. destruct (save_dm_spec d P s) as (HI & _). destruct (HI t Ht q) as ([E|(_ & E)] & _).
        * intros Hin. apply matrix_files_form in Hin. destruct Hin as (n & ->). apply below_length in Hb. rewrite !app_length in Hb. cbn [length] in Hb. lia.
        * rewrite E. apply (HW _ Hl). exact Hb.
        * rewrite E. discriminate.
      + intros q Hq Hdir. rewrite save_dm_eq in Ht by assumption. apply (proj2 (HW _ Hl) q Hq).
        destruct (mkdirs_spec (P ++ [dm_label d]) s) as (HM & _).
        assert (Hnb : below (P ++ [dm_label d]) q = false).
        { destruct (below (P ++ [dm_label d]) q) eqn:B; [|reflexivity]. apply matrix_files_form in Hq. destruct Hq as (n & ->).
          apply below_length in B. rewrite app_length in B. cbn [length] in B. lia. }
        apply states_bind in Ht. destruct Ht as [Ht|(a & _ & Ht)].
        * rewrite <- (proj1 (HM t Ht q) Hnb). exact Hdir.
        * rewrite <- (proj1 (HM _ (states_last _ _) q) Hnb). exact (proj1 (write_all_no_dir _ _) t Ht q Hdir).
    - destruct (save_dm_spec d P s) as (HI & _). apply (writable_keep lp s t (dm_label d)); [congruence|exact (HI t Ht)|apply HW, Hl].
  Qed.
  Lemma ensure_writable L s : all_writable L s -> always (all_writable L) (lp_ensure_folder lp) s (fun _ _ => True).
  Proof.
    intros HW. split; [|exact Logic.I]. intros t Ht l Hl. destruct (mkdirs_spec P s) as (HI & _).
    apply (writable_mkdirs lp s); [exact (HI t Ht)|apply HW, Hl].
  Qed.
  Lemma save_plain_writable L m s : all_writable L s -> always (all_writable L) (save_plain lp m) s (fun _ _ => True).
  Proof.
    intros HW. unfold save_plain. apply always_bind. eapply always_conseq; [apply ensure_writable; exact HW|auto|].
    intros t [[]|e] Ht _; [|exact Logic.I]. apply bind_locked; [exact Ht| |]; intros _.
    - apply always_raise; auto.
    - apply save_dm_writable, Ht.
  Qed.
  Lemma save_built_writable L b s : all_writable L s -> always (all_writable L) (save_built lp b) s (fun _ _ => True).
  Proof.
    intros HW. destruct b as [m|f tr te]; cbn [save_built]; [apply save_plain_writable; assumption|].
    apply always_bind. eapply always_conseq; [apply save_plain_writable; exact HW|auto|]. intros t [[]|e] Ht _; [|exact Logic.I].
    apply always_bind. eapply always_conseq; [apply ensure_writable; exact Ht|auto|]. intros u [[]|e] Hu _; [|exact Logic.I].
    apply bind_locked; [exact Hu| |]; intros _; [apply always_raise; auto|].
    apply always_bind. eapply always_conseq; [apply save_dm_writable; exact Hu|auto|]. intros v [[]|e] Hv _; [|exact Logic.I].
    apply save_dm_writable, Hv.
  Qed.
  Lemma lock_writable L ty s : (forall l, In l L -> no_lock_label l) -> all_writable L s -> always (all_writable L) (lock_folder lp ty) s (fun _ _ => True).
  Proof.
    intros HL HW. destruct (lock_spec lp ty s) as (HI & _). split; [|exact Logic.I]. intros t Ht l Hl. specialize (HI t Ht). cbn beta in HI.
    destruct (get_lock_form lp (the_type lp ty)) as (n & Hn & En). rewrite En in HI. fold P in HI.
    destruct (HW l Hl) as (W1 & W2). split.
    - intros q c Hb. rewrite HI; [apply W1, Hb|]. intros ->. apply below_spec in Hb. destruct Hb as (r & E).
      rewrite <- app_assoc in E. apply app_inv_head in E. inversion E as [[E1 E2]]. specialize (HL l Hl). unfold no_lock_label in HL. congruence.
    - intros q Hq. rewrite HI; [apply W2, Hq|]. apply (lock_outside lp l n q Hq).
  Qed.
  Lemma build_writable L do_save auto_lock source s : (forall l, In l L -> no_lock_label l) -> all_writable L s ->
    always (all_writable L) (build lp do_save auto_lock source) s (fun _ _ => True).
  Proof.
    intros HL HW. unfold build. destruct source as [b|e]; cbn [lift pbind]; [|apply always_raise; auto].
    destruct do_save; [|apply always_ret; auto]. unfold finalize_and_save. apply always_bind.
    eapply always_conseq; [apply save_built_writable; exact HW|auto|]. intros t [[]|e] Ht _; [|exact Logic.I].
    destruct auto_lock; [|apply always_ret; auto]. apply lock_writable; assumption.
  Qed.
End Folder.

(** Whatever a build was doing when the process stopped: if the folder did not get its lock, building
    again (the same or another dataset) completes, locks the folder, and what is then loaded is the
    second dataset; nothing of the interrupted one shows. *)
Theorem C50_interrupted_build_repeats : forall lp s b1 b2 do_save auto_lock t,
  proper_labels b2 -> clean_labels b2 ->
  (forall label, In label (part_labels (has_split b2)) -> writable s (lp_path lp ++ [label])) ->
  In t (states s (build lp do_save auto_lock (Ok b1))) -> ~ locked t (lp_path lp) ->
  exists u, exec t (build lp true true (Ok b2)) = (u, Ok tt) /\ locked u (lp_path lp) /\
    exec u (load_if_ready lp (has_split b2)) = (u, Ok (Some (read_back_built b2))).
Proof.
  intros lp s b1 b2 do_save auto_lock t Hp Hc Hw Ht Hu.
  destruct (build_writable lp (part_labels (has_split b2)) do_save auto_lock (Ok b1) s) as (HI & _).
  - intros l Hl. unfold part_labels in Hl. destruct (has_split b2); cbn [In] in Hl; intuition (subst; reflexivity).
  - exact Hw.
  - destruct (C42_build_then_load lp t b2 Hp Hu (HI t Ht)) as (u & E1 & E2 & _ & E3). exists u. auto.
Qed.
(** stopped in the middle of writing Y.mtx of another dataset *)
Example C50_example :
  exists t, In t (states disk (build a_definition true true (Ok (tiny 1)))) /\ ~ locked t (lp_path a_definition) /\
    file_is t (lp_path a_definition ++ ["dataset"; "Y.mtx"]) Partial /\
    (let u := fst (exec t (build a_definition true true (Ok (tiny 2)))) in
     snd (exec u (load_if_ready a_definition false)) = Ok (Some (read_back_built (tiny 2)))).
Proof.
  exists (nth 9 (states disk (build a_definition true true (Ok (tiny 1)))) []). split.
  - apply nth_In. vm_compute. lia.
  - split; [|split; vm_compute; reflexivity]. intros (name & Hn & Hl). apply Hl.
    apply (proj1 (names_in_nil _ (lp_path a_definition) "locked_")); [vm_compute; reflexivity|exact Hn].
Qed.
