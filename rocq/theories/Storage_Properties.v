(** C38: saving and loading a dataset matrix.
    Statements use Storage_Spec.v. *)
From Coq Require Import String.
From Verif Require Import Base Matrix_Model Text_Model Text_Proofs FS_Model FS_Proofs Storage_Model Storage_Spec Storage_Proofs.
Open Scope string_scope.
Open Scope list_scope.

(** For every dataset, folder and state of the disk: saving a finalised dataset and loading it again
    gives back both matrices exactly; a list of labels comes back exactly when each label has no line
    break and no surrounding white space and the last one is not empty (or there is none). *)
Theorem C38_save_then_load : forall s folder d,
  dm_final d = true -> writable s (folder ++ [dm_label d]) ->
  exists s' d',
    exec s (save_dm d folder) = (s', Ok tt) /\
    exec s' (load_dm (dm_label d) false folder) = (s', Ok d') /\
    dm_label d' = dm_label d /\ dm_final d' = true /\
    dm_X d' = SMat CSC (sm_ncols (dm_X d)) (sm_rows (dm_X d)) /\
    dm_Y d' = SMat CSC (sm_ncols (dm_Y d)) (sm_rows (dm_Y d)) /\
    (dm_row_labels d' = dm_row_labels d <-> storable_labels (dm_row_labels d)) /\
    (dm_labels_X d' = dm_labels_X d <-> storable_labels (dm_labels_X d)) /\
    (dm_labels_Y d' = dm_labels_Y d <-> storable_labels (dm_labels_Y d)).
Proof.
  intros s folder d Hf Hw. pose proof (save_dm_ok d folder s Hf Hw) as Hok.
  destruct (save_dm_spec d folder s) as (_ & HQ).
  destruct (exec s (save_dm d folder)) as (s' & r). cbn [fst snd] in *. subst r.
  destruct HQ as [(_ & _ & Hh)|[?|(? & _)]]; [|discriminate|discriminate].
  exists s', (loaded (dm_label d) false d). split; [reflexivity|]. split; [apply load_dm_exec; assumption|].
  cbn [loaded finalize dm_final set_final set_Y set_X dm_label dm_X dm_Y dm_row_labels dm_labels_X dm_labels_Y].
  split; [reflexivity|]. split; [reflexivity|]. split; [reflexivity|]. split; [reflexivity|].
  split; [apply labels_roundtrip|]. split; apply labels_roundtrip.
Qed.

(** In particular a dataset with such labels comes back unchanged, in compressed-column format. *)
Theorem C38_lossless : forall s folder d s',
  dm_final d = true -> writable s (folder ++ [dm_label d]) ->
  storable_labels (dm_row_labels d) -> storable_labels (dm_labels_X d) -> storable_labels (dm_labels_Y d) ->
  fst (exec s (save_dm d folder)) = s' ->
  exec s' (load_dm (dm_label d) false folder) = (s', Ok (read_back d)) /\
  (sm_format (dm_X d) = CSC -> sm_format (dm_Y d) = CSC -> read_back d = d).
Proof.
  intros s folder d s' Hf Hw L1 L2 L3 <-. destruct (C38_save_then_load s folder d Hf Hw) as (t & d' & E1 & E2 & A1 & A2 & A3 & A4 & A5 & A6 & A7).
  rewrite E1. cbn [fst]. rewrite E2. split.
  - do 2 f_equal. destruct d' as [l X Y rl lx ly f]. cbn [dm_label dm_X dm_Y dm_row_labels dm_labels_X dm_labels_Y dm_final] in *.
    apply A5 in L1. apply A6 in L2. apply A7 in L3. subst. reflexivity.
  - destruct d as [l [fx nx rx] [fy ny ry] rl lx ly f]. cbn [dm_label dm_X dm_Y dm_row_labels dm_labels_X dm_labels_Y dm_final sm_format sm_ncols sm_rows] in *.
    intros -> ->. unfold read_back. cbn [dm_label dm_X dm_Y dm_row_labels dm_labels_X dm_labels_Y sm_ncols sm_rows]. subst f. reflexivity.
Qed.

(** Saving touches only the dataset's own five files and creates missing folders on the way to them;
    at every moment. *)
Theorem C38_save_touches_only_its_files : forall s folder d t q,
  In t (states s (save_dm d folder)) -> ~ In q (matrix_files (folder ++ [dm_label d])) ->
  lookup t q = lookup s q \/
  (lookup s q = None /\ lookup t q = Some Dir /\ below (folder ++ [dm_label d]) q = true).
Proof.
  intros s folder d t q Ht Nq. destruct (save_dm_spec d folder s) as (HI & _). destruct (HI t Ht q Nq) as ([H|(H1 & H2)] & H3); [auto|].
  destruct (below (folder ++ [dm_label d]) q); [right; auto|left; auto].
Qed.

(** Saving a dataset that is not finalised is refused, and nothing is written. *)
Theorem C38_not_final_refused : forall s folder d, dm_final d = false ->
  exec s (save_dm d folder) = (s, Err MatrixNotFinalized) /\ (forall t, In t (states s (save_dm d folder)) -> t = s).
Proof.
  intros s folder d Hf. destruct (save_dm_not_final d folder s Hf) as (E1 & E2). split; [assumption|].
  rewrite E2. intros t [<-|[]]. reflexivity.
Qed.

(** Loading never changes the disk. *)
Theorem C38_load_reads_only : forall s label was_final folder t, In t (states s (load_dm label was_final folder)) -> t = s.
Proof. intros s label was_final folder t. apply load_dm_states. Qed.

(** Loading into an object that was already finalised leaves the matrices in compressed-row format:
    finalize() returns at once. *)
Theorem C38_load_into_final_keeps_rows : forall s folder d, holds_matrix s folder d ->
  exists d', exec s (load_dm (dm_label d) true folder) = (s, Ok d') /\ dm_final d' = true /\
    dm_X d' = SMat CSR (sm_ncols (dm_X d)) (sm_rows (dm_X d)) /\ dm_Y d' = SMat CSR (sm_ncols (dm_Y d)) (sm_rows (dm_Y d)).
Proof.
  intros s folder d H. exists (loaded (dm_label d) true d). split; [apply load_dm_exec; assumption|]. repeat split; reflexivity.
Qed.

(** a concrete dataset: labels "row a" (a space inside survives), a padded one does not *)
Definition stored_example (rl : list text) : dmatrix :=
  finalize (DMat "m" (SMat CSR 2 [[1; 0]; [0; 7]]%Z) (SMat CSR 1 [[1]; [0]]%Z) rl [[97]; [98]] [[121]] false).
Example C38_example_writable : writable [(["data"], Dir)] (["data"] ++ ["m"]).
Proof.
  split.
  - intros q c Hb. cbn [lookup assoc]. destruct (path_eqb_spec q ["data"]); discriminate.
  - intros q Hq. unfold matrix_files in Hq. cbn [In List.app] in Hq. cbn [lookup assoc].
    destruct (path_eqb_spec q ["data"]) as [->|]; [|discriminate]. exfalso. intuition discriminate.
Qed.
Example C38_example :
  let d := stored_example [[114; 32; 97]; [114; 98]] in
  storable_labels (dm_row_labels d) /\ storable_labels (dm_labels_X d) /\ storable_labels (dm_labels_Y d) /\
  snd (exec (fst (exec [(["data"], Dir)] (save_dm d ["data"]))) (load_dm "m" false ["data"])) = Ok d.
Proof.
  cbv zeta. split; [|split; [|split]].
  1,2,3: apply labels_roundtrip; vm_compute; reflexivity.
  vm_compute. reflexivity.
Qed.
Example C38_padded_label_lost :
  let d := stored_example [[114; 32]; [114; 98]] in
  exists d', snd (exec (fst (exec [(["data"], Dir)] (save_dm d ["data"]))) (load_dm "m" false ["data"])) = Ok d' /\
    dm_row_labels d' <> dm_row_labels d.
Proof. cbv zeta. eexists. split; [vm_compute; reflexivity|vm_compute; discriminate]. Qed.
Example C38_empty_last_label_lost :
  let d := stored_example [[114]; []] in
  exists d', snd (exec (fst (exec [(["data"], Dir)] (save_dm d ["data"]))) (load_dm "m" false ["data"])) = Ok d' /\
    length (dm_row_labels d') = 1.
Proof. cbv zeta. eexists. split; [vm_compute; reflexivity|reflexivity]. Qed.

(** What can be stored, spelled out in characters: 10 and 13 are the line breaks *)
Theorem C38_white_space : forall c, is_space c = true <-> white_space c.
Proof.
  intros c. unfold is_space, white_space. rewrite !Bool.orb_true_iff, !Bool.andb_true_iff, !Nat.leb_le, !Nat.eqb_eq. tauto.
Qed.
Theorem C38_which_labels : forall l, storable_labels l <->
  Forall (fun t => ~ In 10 t /\ ~ In 13 t /\ (forall c u, t = c :: u -> ~ white_space c) /\ (forall c u, t = u ++ [c] -> ~ white_space c)) l /\
  (l = [] \/ exists l' t, l = l' ++ [t] /\ t <> []).
Proof.
  assert (W : forall c, is_space c = false <-> ~ white_space c) by (intros c; rewrite <- C38_white_space; destruct (is_space c); split; congruence).
  intros l. unfold storable_labels, LF, CR. 
  assert (A : forall A B C D : Prop, (A <-> B) -> (C <-> D) -> (A /\ C <-> B /\ D)) by tauto. apply A; clear A.
  - rewrite !Forall_forall. split; intros H t Ht; destruct (H t Ht) as (A & B & C & D); (split; [exact A|split; [exact B|split]]); intros c u E; apply W; eauto.
  - destruct l as [|x l] using rev_ind; [split; auto|]. rewrite last_last. split; intros [H|H].
    + left. exact H.
    + right. exists l, x. auto.
    + left. exact H.
    + right. destruct H as (l' & t & E & Nt). apply app_inj_tail in E as [_ ->]. exact Nt.
Qed.
Print Assumptions C38_which_labels.
