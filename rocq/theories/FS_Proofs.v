(** Lemmas about the file system of FS_Model.v and the programs acting on it. *)
From Coq Require Import String.
From Verif Require Import Base Matrix_Model FS_Model.
Open Scope list_scope.

Lemma path_eqb_spec p q : Bool.reflect (p = q) (path_eqb p q).
Proof. unfold path_eqb. destruct (list_eq_dec string_dec p q); constructor; assumption. Qed.
Lemma path_eqb_refl p : path_eqb p p = true.
Proof. destruct (path_eqb_spec p p); congruence. Qed.

Lemma lookup_update s p n q : lookup (update s p n) q = if path_eqb q p then Some n else lookup s q.
Proof.
  unfold lookup, update. induction s as [|(p', n') s IH]; cbn [assoc_set assoc].
  - destruct (path_eqb_spec q p); reflexivity.
  - destruct (path_eqb_spec p p') as [<-|Np]; cbn [assoc].
    + destruct (path_eqb_spec q p); reflexivity.
    + rewrite IH. destruct (path_eqb_spec q p') as [->|Nq].
      * destruct (path_eqb_spec p' p); [congruence|reflexivity].
      * reflexivity.
Qed.
Lemma lookup_remove s p q : lookup (remove s p) q = if path_eqb q p then None else lookup s q.
Proof.
  unfold lookup, remove. induction s as [|(p', n') s IH]; cbn [filter assoc fst].
  - destruct (path_eqb q p); reflexivity.
  - destruct (path_eqb_spec p p') as [<-|Np]; cbn [negb].
    + rewrite IH. destruct (path_eqb_spec q p); reflexivity.
    + cbn [assoc]. rewrite IH. destruct (path_eqb_spec q p') as [->|Nq].
      * destruct (path_eqb_spec p' p); [congruence|reflexivity].
      * reflexivity.
Qed.
Lemma lookup_In s p : lookup s p <> None <-> In p (map fst s).
Proof.
  unfold lookup. induction s as [|(p', n') s IH]; cbn [assoc map fst In].
  - split; [congruence|tauto].
  - destruct (path_eqb_spec p p') as [->|N].
    + split; [auto|congruence].
    + rewrite IH. split; [auto|intros [?|?]; [congruence|assumption]].
Qed.

Lemma names_in_spec s p pre name :
  In name (names_in s p pre) <-> lookup s (p ++ [name]) <> None /\ prefix pre name = true.
Proof.
  rewrite lookup_In. unfold names_in. rewrite in_flat_map. split.
  - intros ((q & n) & Hin & Hn). cbn [fst] in Hn. destruct (rev q) as [|x r] eqn:E; [destruct Hn|].
    destruct (path_eqb_spec (rev r) p) as [<-|]; cbn [andb] in Hn; [|destruct Hn].
    destruct (prefix pre x) eqn:Ep; [|destruct Hn]. destruct Hn as [<-|[]].
    split; [|assumption]. apply in_map_iff. exists (q, n). split; [|assumption]. cbn [fst].
    rewrite <- (rev_involutive q), E. reflexivity.
  - intros (Hin & Hp). apply in_map_iff in Hin. destruct Hin as ((q & n) & Eq & Hin). cbn [fst] in Eq. subst q.
    exists (p ++ [name], n). split; [assumption|]. cbn [fst]. rewrite rev_app_distr. cbn [rev List.app].
    rewrite rev_involutive, path_eqb_refl, Hp. left. reflexivity.
Qed.
Lemma names_in_nil s p pre : names_in s p pre = [] <-> forall name, prefix pre name = true -> lookup s (p ++ [name]) = None.
Proof.
  split.
  - intros H name Hp. destruct (lookup s (p ++ [name])) eqn:E; [|reflexivity]. exfalso.
    assert (In name (names_in s p pre)) as Hin by (apply names_in_spec; split; [congruence|assumption]).
    rewrite H in Hin. destruct Hin.
  - intros H. destruct (names_in s p pre) as [|x l] eqn:E; [reflexivity|]. exfalso.
    assert (In x (names_in s p pre)) as Hin by (rewrite E; left; reflexivity).
    apply names_in_spec in Hin. destruct Hin as (H1 & H2). rewrite (H _ H2) in H1. congruence.
Qed.

Lemma below_refl p : below p p = true.
Proof. induction p; cbn [below]; [reflexivity|]. rewrite String.eqb_refl. assumption. Qed.
Lemma below_app p q : below (p ++ q) p = true.
Proof. induction p; cbn [below List.app]; [destruct q; reflexivity|]. rewrite String.eqb_refl. assumption. Qed.
Lemma below_spec p q : below p q = true <-> exists r, p = q ++ r.
Proof.
  split; [|intros (r & ->); apply below_app].
  revert p. induction q as [|x q IH]; intros p H; [exists p; reflexivity|].
  destruct p as [|y p]; cbn [below] in H; [discriminate|].
  apply andb_true_iff in H. destruct H as (H1 & H2). apply String.eqb_eq in H1. subst y.
  destruct (IH _ H2) as (r & ->). exists r. reflexivity.
Qed.
Lemma below_trans p q r : below p q = true -> below q r = true -> below p r = true.
Proof. rewrite !below_spec. intros (a & ->) (b & ->). exists (b ++ a). rewrite app_assoc. reflexivity. Qed.

(** ** running programs *)
Lemma exec_bind {A B} (m : prog A) (f : A -> prog B) : forall s,
  exec s (pbind m f) = match exec s m with (s', Ok a) => exec s' (f a) | (s', Err e) => (s', Err e) end.
Proof. induction m; intros s; cbn [pbind exec]; auto. Qed.
Lemma states_bind {A B} (m : prog A) (f : A -> prog B) : forall s t,
  In t (states s (pbind m f)) ->
  In t (states s m) \/ exists a, snd (exec s m) = Ok a /\ In t (states (fst (exec s m)) (f a)).
Proof.
  induction m; intros s t; cbn [pbind states exec];
    try (intros [<-|Ht]; [left; left; reflexivity|]);
    try (match goal with IH : forall _ _ _, In _ (states _ (pbind _ _)) -> _ |- _ =>
           destruct (IH _ _ _ Ht) as [?|?]; [left; right; assumption|right; assumption] end).
  - right. exists a. cbn [snd fst]. auto.
  - left. right. assumption.
  - destruct (IHm _ _ Ht) as [?|?]; [left; right; assumption|right; assumption].
  - destruct (IHm _ _ Ht) as [?|?]; [left; right; assumption|right; assumption].
Qed.
Lemma states_first {A} s (m : prog A) : In s (states s m).
Proof. destruct m; left; reflexivity. Qed.
Lemma states_last {A} (m : prog A) : forall s, In (fst (exec s m)) (states s m).
Proof. induction m; intros s; cbn [exec states fst]; try (left; reflexivity); right; auto. Qed.
Lemma states_step {A} s (m : prog A) :
  states s m = s :: match step s m with Some (s', m') => states s' m' | None => [] end.
Proof. destruct m; reflexivity. Qed.
Lemma exec_step {A} s (m : prog A) s' m' : step s m = Some (s', m') -> exec s m = exec s' m'.
Proof. destruct m; cbn [step]; intros E; inversion E; subst; reflexivity. Qed.

(** every state satisfies [I] and the final outcome [Q] *)
Definition always {A} (I : fs -> Prop) (m : prog A) (s : fs) (Q : fs -> res A -> Prop) : Prop :=
  (forall t, In t (states s m) -> I t) /\ Q (fst (exec s m)) (snd (exec s m)).
Lemma always_bind {A B} (I : fs -> Prop) (m : prog A) (f : A -> prog B) s (Q : fs -> res B -> Prop) :
  always I m s (fun s' r => match r with Ok a => always I (f a) s' Q | Err e => Q s' (Err e) end) ->
  always I (pbind m f) s Q.
Proof.
  intros (HI & HQ). split.
  - intros t Ht. apply states_bind in Ht. destruct Ht as [Ht|(a & E & Ht)]; [auto|].
    rewrite E in HQ. destruct HQ as (HI' & _). auto.
  - rewrite exec_bind. destruct (exec s m) as (s' & r). cbn [fst snd] in *. destruct r as [a|e]; [apply HQ|exact HQ].
Qed.
Lemma always_conseq {A} (I I' : fs -> Prop) (m : prog A) s (Q Q' : fs -> res A -> Prop) :
  always I m s Q -> (forall t, I t -> I' t) -> (forall t r, I t -> Q t r -> Q' t r) -> always I' m s Q'.
Proof.
  intros (HI & HQ) H1 H2. split; [auto|]. apply H2; [|assumption]. apply HI, states_last.
Qed.
Lemma always_ret {A} (I : fs -> Prop) (a : A) s (Q : fs -> res A -> Prop) : I s -> Q s (Ok a) -> always I (Ret a) s Q.
Proof. intros H1 H2. split; [intros t [<-|[]]; assumption|exact H2]. Qed.
Lemma always_raise {A} (I : fs -> Prop) e s (Q : fs -> res A -> Prop) : I s -> Q s (Err e) -> always I (Raise e) s Q.
Proof. intros H1 H2. split; [intros t [<-|[]]; assumption|exact H2]. Qed.
Lemma always_step {A} (I : fs -> Prop) (m : prog A) s s' m' Q : step s m = Some (s', m') -> I s -> always I m' s' Q -> always I m s Q.
Proof.
  intros E Hs (HI & HQ). split.
  - intros t Ht. rewrite states_step, E in Ht. destruct Ht as [<-|Ht]; auto.
  - rewrite (exec_step _ _ _ _ E). exact HQ.
Qed.
Lemma always_and {A} (I1 I2 : fs -> Prop) (m : prog A) s Q1 Q2 :
  always I1 m s Q1 -> always I2 m s Q2 -> always (fun t => I1 t /\ I2 t) m s (fun t r => Q1 t r /\ Q2 t r).
Proof. intros (H1 & H2) (H3 & H4). split; [intros t Ht; split; auto|split; assumption]. Qed.

(** *** the entry at [q] may change only from absent to a folder *)
Definition grown (s t : fs) (q : path) : Prop :=
  lookup t q = lookup s q \/ (lookup s q = None /\ lookup t q = Some Dir).
Lemma grown_refl s q : grown s s q. Proof. left. reflexivity. Qed.
Lemma grown_trans s t u q : grown s t q -> grown t u q -> grown s u q.
Proof.
  unfold grown. intros [H1|(H1 & H2)] [H3|(H3 & H4)]; [left; congruence|right; split; congruence|right; split; congruence|].
  exfalso; congruence.
Qed.

Lemma do_mkdir_spec s p : p <> [] ->
  (forall q, q <> p -> lookup (fst (do_mkdir s p)) q = lookup s q) /\ grown s (fst (do_mkdir s p)) p /\
  (snd (do_mkdir s p) = true -> lookup (fst (do_mkdir s p)) p = Some Dir).
Proof.
  intros Hp. assert (Hd : is_dir s p = match lookup s p with Some Dir => true | _ => false end) by (destruct p; [congruence|reflexivity]).
  assert (He : exists_ s p = match lookup s p with Some _ => true | None => false end) by (destruct p; [congruence|reflexivity]).
  unfold do_mkdir. rewrite Hd, He.
  destruct (lookup s p) as [[|c]|] eqn:E; cbn [fst snd].
  - split; [auto|]. split; [left; reflexivity|auto].
  - split; [auto|]. split; [left; reflexivity|discriminate].
  - destruct (is_dir s (parent p)); cbn [fst snd].
    + split; [|split].
      * intros q Nq. rewrite lookup_update. destruct (path_eqb_spec q p); [congruence|reflexivity].
      * right. split; [assumption|]. rewrite lookup_update, path_eqb_refl. reflexivity.
      * intros _. rewrite lookup_update, path_eqb_refl. reflexivity.
    + split; [auto|]. split; [left; reflexivity|discriminate].
Qed.

Lemma mkdir_all_spec ps : forall s, Forall (fun p => p <> []) ps ->
  always (fun t => forall q, (~ In q ps -> lookup t q = lookup s q) /\ grown s t q) (mkdir_all ps) s
    (fun t r => (r = Ok tt /\ forall p, In p ps -> lookup t p = Some Dir) \/ r = Err OSErr).
Proof.
  induction ps as [|p ps IH]; intros s Hne; cbn [mkdir_all].
  - apply always_ret.
    + intros q. split; [auto|apply grown_refl].
    + left. split; [reflexivity|intros p []].
  - inversion Hne as [|? ? Hp Hps]; subst. destruct (do_mkdir_spec s p Hp) as (H1 & H2 & H3).
    eapply always_step; [reflexivity| |].
    + intros q. split; [auto|apply grown_refl].
    + destruct (snd (do_mkdir s p)).
      * specialize (IH (fst (do_mkdir s p)) Hps). destruct IH as (HI & HQ). split.
        -- intros t Ht q. destruct (HI _ Ht q) as (H4 & H5). split.
           ++ intros Nin. cbn [In] in Nin. rewrite H4 by tauto. apply H1. intros ->. tauto.
           ++ destruct (list_eq_dec string_dec q p) as [->|N].
              ** eapply grown_trans; eauto.
              ** unfold grown in *. rewrite (H1 _ N) in H5. assumption.
        -- destruct HQ as [(E & HQ)|E]; [left|right; assumption]. split; [assumption|].
           intros q [<-|Hin]; [|auto]. pose proof (HI _ (states_last _ _) p) as (_ & Hg).
           destruct Hg as [Hg|(Hg & _)]; [rewrite Hg; auto|rewrite H3 in Hg by reflexivity; discriminate].
      * apply always_raise.
        -- intros q. split; [intros Nin; apply H1; intros ->; apply Nin; left; reflexivity|].
           destruct (list_eq_dec string_dec q p) as [->|N]; [assumption|]. left. auto.
        -- right. reflexivity.
Qed.
Lemma prefixes_spec p : forall q, In q (prefixes p) <-> q <> [] /\ below p q = true.
Proof.
  induction p as [|x p IH]; intros q; cbn [prefixes In].
  - split; [tauto|]. intros (H1 & H2). destruct q; [congruence|discriminate].
  - rewrite in_map_iff. split.
    + intros [<-|(r & <- & Hr)]; (split; [discriminate|]); cbn [below]; rewrite String.eqb_refl; [destruct p; reflexivity|].
      apply IH in Hr. apply Hr.
    + intros (H1 & H2). destruct q as [|y q]; [congruence|]. cbn [below] in H2.
      apply andb_true_iff in H2. destruct H2 as (H2 & H3). apply String.eqb_eq in H2. subst y.
      destruct q as [|z q]; [left; reflexivity|right]. exists (z :: q). split; [reflexivity|].
      apply IH. split; [discriminate|assumption].
Qed.
Lemma prefixes_nonempty p : Forall (fun q => q <> []) (prefixes p).
Proof. apply Forall_forall. intros q Hq. apply prefixes_spec in Hq. apply Hq. Qed.

(** making a folder with its parents: nothing else changes; it fails only if a file is in the way *)
Lemma mkdirs_spec p s :
  always (fun t => forall q, (below p q = false -> lookup t q = lookup s q) /\ grown s t q) (mkdirs p) s
    (fun t r => (r = Ok tt /\ forall q, q <> [] -> below p q = true -> lookup t q = Some Dir) \/ r = Err OSErr).
Proof.
  unfold mkdirs. eapply always_conseq; [apply mkdir_all_spec, prefixes_nonempty| |].
  - intros t H q. destruct (H q) as (H1 & H2). split; [|assumption]. intros Hb. apply H1.
    rewrite prefixes_spec. intros (_ & Hb'). congruence.
  - intros t r _ [(E & H)|E]; [left|right; assumption]. split; [assumption|].
    intros q H1 H2. apply H, prefixes_spec. auto.
Qed.
(** the folders of a chain (each but the first lying directly in the previous one) can be created *)
Lemma removelast_cons {A} (x y : A) l : removelast (x :: y :: l) = x :: removelast (y :: l).
Proof. reflexivity. Qed.
Lemma mkdir_chain ps : forall s, Forall (fun p => p <> []) ps ->
  (forall a p b, ps = a ++ p :: b -> parent p = [] \/ In (parent p) a \/ lookup s (parent p) = Some Dir) ->
  (forall p, In p ps -> forall c, lookup s p <> Some (File c)) ->
  snd (exec s (mkdir_all ps)) = Ok tt.
Proof.
  induction ps as [|p ps IH]; intros s Hne Hc Hf; cbn [mkdir_all exec]; [reflexivity|].
  inversion Hne as [|? ? Hp Hps]; subst.
  assert (Hpar : is_dir s (parent p) = true).
  { destruct (Hc [] p ps eq_refl) as [E|[[]|E]]; unfold is_dir.
    - rewrite E. reflexivity.
    - destruct (parent p); [reflexivity|]. rewrite E. reflexivity. }
  assert (Hok : snd (do_mkdir s p) = true).
  { unfold do_mkdir. destruct (is_dir s p) eqn:E1; [reflexivity|].
    destruct (exists_ s p) eqn:E2; cbn [snd].
    - unfold is_dir, exists_ in *. destruct p; [congruence|]. destruct (lookup s (s0 :: p)) as [[|c]|] eqn:E; try discriminate.
      exfalso. apply (Hf (s0 :: p) (or_introl eq_refl) c E).
    - rewrite Hpar. reflexivity. }
  destruct (do_mkdir_spec s p Hp) as (H1 & H2 & H3). rewrite Hok. apply IH; [assumption| |].
  - intros a q b E. destruct (Hc (p :: a) q b) as [Hx|[Hx|Hx]]; [cbn [List.app]; rewrite E; reflexivity|left; assumption| |].
    + destruct Hx as [<-|Hx]; [right; right; auto|right; left; assumption].
    + right. right. destruct (list_eq_dec string_dec (parent q) p) as [->|N]; [auto|]. rewrite H1 by assumption. assumption.
  - intros q Hq c. destruct (list_eq_dec string_dec q p) as [->|N].
    + rewrite H3 by assumption. discriminate.
    + rewrite H1 by assumption. apply Hf. right. assumption.
Qed.
Lemma prefixes_chain p : forall a q b, prefixes p = a ++ q :: b -> parent q = [] \/ In (parent q) a.
Proof.
  induction p as [|x p IH]; intros a q b E; cbn [prefixes] in E; [destruct a; discriminate|].
  destruct a as [|a0 a]; cbn [List.app] in E; inversion E; subst.
  - left. reflexivity.
  - right.
    assert (Hq : exists a' q' b', prefixes p = a' ++ q' :: b' /\ a = map (cons x) a' /\ q = x :: q').
    { clear - H1. revert a H1. generalize (prefixes p) as l. induction l as [|y l IH]; intros a E; cbn [map] in E; [destruct a; discriminate|].
      destruct a as [|a1 a]; cbn [List.app] in E; inversion E; subst.
      - exists [], y, l. auto.
      - destruct (IH _ H1) as (a' & q' & b' & -> & -> & ->). exists (y :: a'), q', b'. auto. }
    destruct Hq as (a' & q' & b' & E' & -> & ->).
    assert (q' <> []) as Hne.
    { pose proof (prefixes_nonempty p) as F. rewrite E' in F. apply Forall_app in F. destruct F as (_ & F). inversion F; assumption. }
    destruct (IH _ _ _ E') as [Hp|Hp].
    + left. unfold parent in *. destruct q' as [|y [|z q'']]; [congruence|reflexivity|discriminate].
    + right. apply in_map_iff. exists (parent q'). split; [|assumption]. destruct q'; [congruence|reflexivity].
Qed.
Lemma mkdirs_ok p s :
  (forall q c, below p q = true -> lookup s q <> Some (File c)) -> snd (exec s (mkdirs p)) = Ok tt.
Proof.
  intros H. apply mkdir_chain; [apply prefixes_nonempty| |].
  - intros a q b E. destruct (prefixes_chain _ _ _ _ E); auto.
  - intros q Hq c. apply prefixes_spec in Hq. destruct Hq as (_ & Hq). apply H. exact Hq.
Qed.

(** *** writing a file *)
Lemma write_file_spec p c s :
  always (fun t => forall q, q <> p -> lookup t q = lookup s q) (write_file p c) s
    (fun t r => (r = Ok tt /\ lookup t p = Some (File c)) \/ (r = Err OSErr /\ t = s)).
Proof.
  unfold write_file. eapply always_step; [reflexivity|auto|]. unfold do_open.
  destruct (is_dir s p); cbn [fst snd].
  - apply always_raise; auto.
  - destruct (is_dir s (parent p)); cbn [fst snd].
    + eapply always_step; [reflexivity| |].
      * intros q Nq. rewrite lookup_update. destruct (path_eqb_spec q p); [congruence|reflexivity].
      * apply always_ret.
        -- intros q Nq. rewrite !lookup_update. destruct (path_eqb_spec q p); [congruence|reflexivity].
        -- left. split; [reflexivity|]. rewrite lookup_update, path_eqb_refl. reflexivity.
    + apply always_raise; auto.
Qed.
Lemma write_file_ok p c s : p <> [] -> lookup s p <> Some Dir -> is_dir s (parent p) = true -> snd (exec s (write_file p c)) = Ok tt.
Proof.
  intros Hp H1 H2. unfold write_file. cbn [exec]. unfold do_open.
  assert (is_dir s p = false) as -> by (unfold is_dir; destruct p; [congruence|]; destruct (lookup s (s0 :: p)) as [[|]|]; congruence).
  rewrite H2. reflexivity.
Qed.

(** *** removing a tree *)
Lemma remove_entries_spec ps : forall s,
  always (fun t => forall q, (~ In q ps -> lookup t q = lookup s q) /\ (lookup t q = lookup s q \/ lookup t q = None)) (remove_entries ps) s
    (fun t r => r = Ok tt /\ forall q, In q ps -> lookup t q = None).
Proof.
  induction ps as [|p ps IH]; intros s; cbn [remove_entries].
  - apply always_ret; [intros q; auto|]. split; [reflexivity|intros q []].
  - eapply always_step; [reflexivity|intros q; auto|].
    destruct (IH (remove s p)) as (HI & HQ1 & HQ2). split; [|split].
    + intros t Ht q. destruct (HI _ Ht q) as (H1 & H2). rewrite lookup_remove in H1, H2. cbn [In].
      destruct (path_eqb_spec q p) as [Eq|N]; [subst q; split; [intros Nin; exfalso; apply Nin; left; reflexivity|tauto]|split; [|tauto]].
      intros Nin. apply H1. tauto.
    + assumption.
    + intros q [<-|Hin]; [|auto]. destruct (HI _ (states_last _ _) p) as (_ & H2).
      rewrite lookup_remove, path_eqb_refl in H2. destruct H2; assumption.
Qed.
Lemma tree_of_spec s p q : In q (tree_of s p) <-> lookup s q <> None /\ below q p = true.
Proof. unfold tree_of. rewrite <- in_rev, filter_In, lookup_In. reflexivity. Qed.
Lemma rmtree_spec p s :
  always (fun t => forall q, (below q p = false -> lookup t q = lookup s q) /\ (lookup t q = lookup s q \/ lookup t q = None)) (rmtree p) s
    (fun t r => r = Ok tt /\ forall q, below q p = true -> lookup t q = None).
Proof.
  unfold rmtree. eapply always_step; [reflexivity|intros q; auto|].
  destruct (remove_entries_spec (tree_of s p) s) as (HI & HQ1 & HQ2). split; [|split].
  - intros t Ht q. destruct (HI _ Ht q) as (H1 & H2). split; [|assumption].
    intros Hb. apply H1. rewrite tree_of_spec. intros (_ & ?). congruence.
  - assumption.
  - intros q Hb. destruct (lookup s q) eqn:E.
    + apply HQ2, tree_of_spec. split; [congruence|assumption].
    + destruct (HI _ (states_last _ _) q) as (_ & [H2|H2]); congruence.
Qed.
