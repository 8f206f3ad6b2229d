(** The memoised and the non-recursive path searches agree with the recursive one. *)
From Verif Require Import Base Graph_Model Graph_Spec Graph_Paths_Proofs.

Definition opath (p : option (list nat)) : list nat := match p with None => [] | Some p => p end.

(** ** memoised search *)
Definition cache_ok (g : graph) (c : pcache) :=
  forall s e path v, cache_get (s, e, path) c = Some v ->
    exists n, find_all_paths_recursive n g s e (opath path) = Ok v.
Definition cache_keeps (c c' : pcache) := forall k v, cache_get k c = Some v -> cache_get k c' = Some v.
Lemma keeps_refl c : cache_keeps c c. Proof. intros k v; auto. Qed.
Lemma keeps_trans a b c : cache_keeps a b -> cache_keeps b c -> cache_keeps a c.
Proof. intros H1 H2 k v; auto. Qed.

Lemma cache_get_cons k v c k' : cache_get k' ((k, v) :: c) = if pkey_dec k' k then Some v else cache_get k' c.
Proof. unfold cache_get. simpl. destruct (pkey_dec k' k); reflexivity. Qed.

Lemma cache_add_keeps k v c c1 : cache_get k c = None -> cache_keeps c c1 -> cache_keeps c ((k, v) :: c1).
Proof.
  intros Hk Hc k' v' E. rewrite cache_get_cons. destruct (pkey_dec k' k) as [->|]; [congruence|auto].
Qed.

Lemma fapr_det n m g s e p v w : find_all_paths_recursive n g s e p = Ok v ->
  find_all_paths_recursive m g s e p = Ok w -> v = w.
Proof.
  intros H1 H2. apply (fapr_mono n (Nat.max n m)) in H1; [|lia]. apply (fapr_mono m (Nat.max n m)) in H2; [|lia]. congruence.
Qed.

Lemma fold_cached fuel g e path1 :
  (forall n c v, cache_ok g c -> find_all_paths_recursive fuel g n e path1 = Ok v ->
     exists c', find_all_paths_cached fuel g n e (Some path1) c = Ok (v, c') /\ cache_ok g c' /\ cache_keeps c c') ->
  forall ns acc c r, cache_ok g c ->
  foldM (fun paths node => if mem node path1 then Ok paths
         else newpaths <- find_all_paths_recursive fuel g node e path1 ;; Ok (paths ++ newpaths)) ns acc = Ok r ->
  exists c', foldM (fun pc node => if mem node path1 then Ok pc
             else '(newpaths, c') <- find_all_paths_cached fuel g node e (Some path1) (snd pc) ;;
                  Ok (fst pc ++ newpaths, c')) ns (acc, c) = Ok (r, c') /\ cache_ok g c' /\ cache_keeps c c'.
Proof.
  intros H ns. induction ns as [|n ns IH]; simpl; intros acc c r Hc E.
  - inversion E; subst. exists c. auto using keeps_refl.
  - apply bind_ok in E as (b & E1 & E2). destruct (mem n path1).
    + inversion E1; subst. simpl. apply IH; assumption.
    + apply bind_ok in E1 as (np & E0 & E1). inversion E1; subst b.
      destruct (H n c np Hc E0) as (c1 & Ec & Hc1 & Hk). rewrite Ec. simpl.
      destruct (IH (acc ++ np) c1 r Hc1 E2) as (c2 & Ec2 & Hc2 & Hk2). exists c2. eauto using keeps_trans.
Qed.

Lemma fapc_ok g e : forall fuel s path c v, cache_ok g c ->
  find_all_paths_recursive fuel g s e (opath path) = Ok v ->
  exists c', find_all_paths_cached fuel g s e path c = Ok (v, c') /\ cache_ok g c' /\ cache_keeps c c' /\
             cache_get (s, e, path) c' = Some v.
Proof.
  induction fuel as [|fuel IH]; intros s path c v Hc E; [discriminate|]. 
  cbn [find_all_paths_cached]. destruct (cache_get (s, e, path) c) as [w|] eqn:Eh.
  { destruct (Hc _ _ _ _ Eh) as (n & En). pose proof (fapr_det _ _ _ _ _ _ _ _ E En). subst w.
    exists c. auto using keeps_refl. }
  pose proof E as E0. simpl in E. fold (opath path). fold (gget g s).
  assert (Hadd : forall c1, cache_ok g c1 -> cache_ok g ((s, e, path, v) :: c1)).
  { intros c1 Hc1 s' e' p' v' E'. rewrite cache_get_cons in E'. destruct (pkey_dec (s', e', p') (s, e, path)) as [Heq|]; [|eauto].
    inversion Heq; subst. inversion E'; subst. exists (S fuel). assumption. }
  assert (Hget : forall c1, cache_get (s, e, path) ((s, e, path, v) :: c1) = Some v).
  { intros c1. rewrite cache_get_cons. destruct (pkey_dec (s, e, path) (s, e, path)); congruence. }
  destruct (s =? e).
  { inversion E; subst v. simpl. eexists. split; [reflexivity|]. split; [apply Hadd; assumption|].
    split; [apply cache_add_keeps; [assumption|apply keeps_refl]|apply Hget]. }
  destruct (gget g s) as [ns|].
  2:{ inversion E; subst v. simpl. eexists. split; [reflexivity|]. split; [apply Hadd; assumption|].
      split; [apply cache_add_keeps; [assumption|apply keeps_refl]|apply Hget]. }
  destruct (fold_cached fuel g e (opath path ++ [s])) with (ns := ns) (acc := @nil (list nat)) (c := c) (r := v)
    as (c1 & E1 & Hc1 & Hk1); [|assumption|exact E|].
  { intros n c0 v0 Hc0 En. destruct (IH n (Some (opath path ++ [s])) c0 v0 Hc0 En) as (c' & H1 & H2 & H3 & _). eauto. }
  rewrite E1. simpl. eexists. split; [reflexivity|]. split; [apply Hadd; assumption|].
  split; [apply cache_add_keeps; assumption|apply Hget].
Qed.

(** the memo is never overwritten, whatever graph it was filled from *)
Lemma fold_keeps fuel g e path1 :
  (forall n c v c', find_all_paths_cached fuel g n e (Some path1) c = Ok (v, c') -> cache_keeps c c') ->
  forall ns pc r, foldM (fun pc node => if mem node path1 then Ok pc
             else '(newpaths, c') <- find_all_paths_cached fuel g node e (Some path1) (snd pc) ;;
                  Ok (fst pc ++ newpaths, c')) ns pc = Ok r -> cache_keeps (snd pc) (snd r).
Proof.
  intros H ns. induction ns as [|n ns IH]; simpl; intros pc r E; [inversion E; apply keeps_refl|].
  apply bind_ok in E as (b & E1 & E2). apply IH in E2. destruct (mem n path1); [inversion E1; subst; assumption|].
  apply bind_ok in E1 as ((np & c1) & E0 & E1). inversion E1; subst. simpl in *. eapply keeps_trans; eauto.
Qed.
Lemma fapc_keeps g e : forall fuel s path c v c', find_all_paths_cached fuel g s e path c = Ok (v, c') ->
  cache_keeps c c' /\ cache_get (s, e, path) c' = Some v.
Proof.
  induction fuel as [|fuel IH]; intros s path c v c' E; [discriminate|]. cbn [find_all_paths_cached] in E.
  destruct (cache_get (s, e, path) c) as [w|] eqn:Eh; [inversion E; subst; auto using keeps_refl|].
  apply bind_ok in E as ((v1 & c1) & E1 & E2). inversion E2; subst.
  split; [|rewrite cache_get_cons; destruct (pkey_dec (s, e, path) (s, e, path)); congruence].
  apply cache_add_keeps; [assumption|].
  destruct (s =? e); [inversion E1; subst; apply keeps_refl|].
  destruct (gget g s) as [ns|]; [|inversion E1; subst; apply keeps_refl].
  eapply (fold_keeps fuel g e _) in E1; [exact E1|]. intros. eapply IH; eauto.
Qed.

(** ** non-recursive search *)
Definition body fuel g stop path := (fun paths node =>
        if mem node path then Ok paths
        else newpaths <- find_all_paths_recursive fuel g node stop path ;; Ok (paths ++ newpaths)).
Lemma body_acc fuel g stop path ns : forall acc,
  foldM (body fuel g stop path) ns acc = (o <- foldM (body fuel g stop path) ns [] ;; Ok (acc ++ o)).
Proof.
  induction ns as [|n ns IH]; intros acc; [simpl; rewrite app_nil_r; reflexivity|].
  cbn [foldM]. unfold body at 1 3. destruct (mem n path).
  - simpl. apply IH.
  - destruct (find_all_paths_recursive fuel g n stop path) as [np|e]; [|reflexivity]. cbn [bind].
    rewrite (IH (acc ++ np)), (IH ([] ++ np)). destruct (foldM (body fuel g stop path) ns []); [|reflexivity].
    simpl. rewrite app_assoc. reflexivity.
Qed.
Lemma body_shift fuel g stop path ns acc r : foldM (body fuel g stop path) ns acc = Ok r ->
  exists out, r = acc ++ out /\ foldM (body fuel g stop path) ns [] = Ok out.
Proof.
  rewrite body_acc. intros E. apply bind_ok in E as (o & E1 & E2). inversion E2; subst. eauto.
Qed.
Lemma body_cons fuel g stop path n ns out : foldM (body fuel g stop path) (n :: ns) [] = Ok out ->
  if mem n path then foldM (body fuel g stop path) ns [] = Ok out
  else exists r o, find_all_paths_recursive fuel g n stop path = Ok r /\ foldM (body fuel g stop path) ns [] = Ok o /\ out = r ++ o.
Proof.
  simpl. intros E. apply bind_ok in E as (b & E1 & E2). unfold body in E1 at 1. destruct (mem n path).
  - inversion E1; subst; assumption.
  - apply bind_ok in E1 as (r & E0 & E1). inversion E1; subst. simpl in E2.
    destruct (body_shift _ _ _ _ _ _ _ E2) as (o & -> & Eo). eauto.
Qed.

Section NonRec.
  Variable g : graph.
  Variable stop : nat.
  Hypothesis closedG : forall u l v, gget g u = Some l -> In v l -> gget g v <> None.

  Definition st vis ns is c i := {| visited := vis; nodestack := ns; indexstack := is; current := c; idx := i |}.

  Lemma skip_cons vis l1 n l2 : mem n vis = true ->
    skip_visited vis (skipn (length l1) (l1 ++ n :: l2)) (length l1) = skip_visited vis (skipn (S (length l1)) (l1 ++ n :: l2)) (S (length l1)).
  Proof.
    intros H. rewrite skipn_app, skipn_all, Nat.sub_diag. simpl skipn at 1. simpl app. simpl skip_visited at 1. rewrite H.
    f_equal. replace (S (length l1)) with (length (l1 ++ [n])) by (rewrite app_length; simpl; lia).
    replace (l1 ++ n :: l2) with ((l1 ++ [n]) ++ l2) by (rewrite <- app_assoc; reflexivity).
    rewrite skipn_app, skipn_all, Nat.sub_diag. reflexivity.
  Qed.

  (** exploring [current] from index [i] to its last neighbour *)
  Lemma nr_explore : forall fuel l2 l1 vis ns is c out,
    gget g c = Some (l1 ++ l2) ->
    (forall x, In x vis <-> In x (rev ns ++ [c])) ->
    foldM (body fuel g stop (rev ns ++ [c])) l2 [] = Ok out ->
    exists m, forall f acc, nr_run (m + f) g stop (st vis ns is c (length l1)) acc
                          = nr_run f g stop (st vis ns is c (length (l1 ++ l2))) (acc ++ out).
  Proof.
    induction fuel as [fuel IHF] using lt_wf_ind.
    induction l2 as [|n l2 IH]; intros l1 vis ns is c out Hg Hvis E.
    { inversion E; subst. exists 0%nat. intros. rewrite !app_nil_r. reflexivity. }
    apply body_cons in E.
    assert (Hmem : mem n vis = mem n (rev ns ++ [c])).
    { apply eq_true_iff_eq. rewrite !mem_In. apply Hvis. }
    destruct (mem n (rev ns ++ [c])) eqn:Em.
    - (* already visited: skipped *)
      destruct (IH (l1 ++ [n]) vis ns is c out) as (m & Hm); [rewrite <- app_assoc; assumption|assumption|assumption|].
      exists m. intros f acc. replace ((l1 ++ [n]) ++ l2) with (l1 ++ n :: l2) in Hm by (rewrite <- app_assoc; reflexivity).
      rewrite <- Hm. destruct (m + f)%nat; [reflexivity|]. simpl.
      assert (Hs : nr_step g stop (st vis ns is c (length l1)) = nr_step g stop (st vis ns is c (length (l1 ++ [n])))).
      { unfold nr_step. simpl. rewrite Hg. rewrite app_length. simpl. rewrite Nat.add_1_r.
        rewrite <- (skip_cons vis l1 n l2 Hmem). reflexivity. }
      rewrite Hs. reflexivity.
    - destruct E as (r & o & Er & Eo & ->).
      assert (Hskip : skip_visited vis (skipn (length l1) (l1 ++ n :: l2)) (length l1) = length l1).
      { rewrite skipn_app, skipn_all, Nat.sub_diag. simpl. rewrite Hmem. reflexivity. }
      assert (Hnth : nth_error (l1 ++ n :: l2) (length l1) = Some n).
      { rewrite nth_error_app2, Nat.sub_diag by lia. reflexivity. }
      destruct (IH (l1 ++ [n]) vis ns is c o) as (m & Hm); [rewrite <- app_assoc; assumption|assumption|assumption|].
      replace ((l1 ++ [n]) ++ l2) with (l1 ++ n :: l2) in Hm by (rewrite <- app_assoc; reflexivity).
      replace (length (l1 ++ [n])) with (S (length l1)) in Hm by (rewrite app_length; simpl; lia).
      destruct fuel as [|fuel]; [discriminate|]. simpl in Er.
      destruct (Nat.eqb_spec n stop) as [->|Hne].
      + (* the target: yield *)
        inversion Er; subst r. exists (S m). intros f acc. simpl. unfold nr_step. simpl. rewrite Hg, Hskip, Hnth, Nat.eqb_refl.
        fold (st vis ns is c (S (length l1))). rewrite Hm. rewrite <- !app_assoc. reflexivity.
      + (* descend, explore, come back *)
        destruct (gget g n) as [nn|] eqn:Egn.
        2:{ exfalso. eapply closedG; [exact Hg|apply in_or_app; right; left; reflexivity|assumption]. }
        destruct (IHF fuel (Nat.lt_succ_diag_r fuel) nn [] (n :: vis) (c :: ns) (S (length l1) :: is) n r) as (m1 & Hm1).
        * assumption.
        * intros x. simpl. rewrite (in_app_iff _ [n]). rewrite Hvis. simpl. intuition.
        * exact Er.
        * exists (S (m1 + S m)). intros f acc. 
          replace (S (m1 + S m) + f)%nat with (S (m1 + (S (m + f))))%nat by lia.
          cbn [nr_run]. unfold nr_step at 1. cbn [current idx visited nodestack indexstack st].
          rewrite Hg, Hskip, Hnth. destruct (Nat.eqb_spec n stop); [contradiction|].
          fold (st (n :: vis) (c :: ns) (S (length l1) :: is) n 0). simpl in Hm1. rewrite Hm1.
          cbn [nr_run]. unfold nr_step at 1. cbn [current idx visited nodestack indexstack st].
          rewrite Egn. replace (skip_visited _ (skipn (length nn) nn) (length nn)) with (length nn) by (rewrite skipn_all; reflexivity).
          rewrite (proj2 (nth_error_None nn (length nn))) by lia.
          assert (Hrem : List.remove Nat.eq_dec n (n :: vis) = vis).
          { simpl. destruct (Nat.eq_dec n n); [|congruence]. apply notin_remove. apply mem_false. rewrite Hmem. reflexivity. }
          rewrite Hrem. fold (st vis ns is c (S (length l1))). rewrite Hm, app_assoc. reflexivity.
  Qed.
End NonRec.

Lemma nonrec_ok g s e : (forall u l v, gget g u = Some l -> In v l -> gget g v <> None) -> gget g s <> None -> s <> e ->
  exists ps, evaluates (fun n => find_all_paths_recursive n g s e []) (Ok ps) /\
             evaluates (find_all_paths_nonrecursive g s e) (Ok ps).
Proof.
  intros Hcl Hs Hne. destruct (fapr_top g s e) as (ps & E & _ & _). exists ps.
  split; [split; [discriminate|eauto]|]. split; [discriminate|].
  specialize (E (S (fuel_for g s)) (Nat.le_succ_diag_r _)). simpl in E.
  destruct (Nat.eqb_spec s e); [contradiction|]. destruct (gget g s) as [l|] eqn:El; [|congruence].
  destruct (nr_explore g e Hcl (fuel_for g s) l [] [s] [] [] s ps) as (m & Hm); [assumption|simpl; tauto|exact E|].
  exists (m + 1)%nat. intros n0 Hn. unfold find_all_paths_nonrecursive. fold (st [s] [] [] s 0).
  replace n0 with (m + S (n0 - m - 1))%nat by lia. simpl length in Hm. simpl app in Hm. rewrite Hm. simpl.
  unfold nr_step. simpl. rewrite El.
  replace (skip_visited _ (skipn (length l) l) (length l)) with (length l) by (rewrite skipn_all; reflexivity).
  rewrite (proj2 (nth_error_None l (length l))) by lia. reflexivity.
Qed.
