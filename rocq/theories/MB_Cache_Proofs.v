(** SetCache, sets as lists, combinations. *)
From Verif Require Import Base MB_Model.

Definition same_set (a b : list nat) := forall x : nat, In x a <-> In x b.

Lemma frozenset_in l x : In x (frozenset l) <-> In x l.
Proof. unfold frozenset. rewrite sort_in. apply nodup_In. Qed.
Lemma frozenset_strict l : StronglySorted lt (frozenset l).
Proof. apply sort_strict, NoDup_nodup. Qed.

Lemma strict_unique l : forall l', StronglySorted lt l -> StronglySorted lt l' -> same_set l l' -> l = l'.
Proof.
  induction l as [|x l IH]; intros l' H1 H2 H.
  - destruct l' as [|y l']; [reflexivity|]. exfalso. apply (proj2 (H y)). left; reflexivity.
  - destruct l' as [|y l']; [exfalso; apply (proj1 (H x)); left; reflexivity|].
    inversion H1 as [|? ? S1 F1]; inversion H2 as [|? ? S2 F2]; subst. rewrite Forall_forall in F1, F2.
    assert (x = y).
    { destruct (proj1 (H x) (or_introl eq_refl)) as [E|Hx]; [congruence|]. destruct (proj2 (H y) (or_introl eq_refl)) as [E|Hy]; [congruence|].
      specialize (F1 _ Hy). specialize (F2 _ Hx). lia. }
    subst y. f_equal. apply IH; [assumption|assumption|]. intros v. split; intros Hv.
    + destruct (proj1 (H v) (or_intror Hv)) as [<-|]; [|assumption]. specialize (F1 _ Hv). lia.
    + destruct (proj2 (H v) (or_intror Hv)) as [<-|]; [|assumption]. specialize (F2 _ Hv). lia.
Qed.
Lemma frozenset_eq a b : frozenset a = frozenset b <-> same_set a b.
Proof.
  split.
  - intros E x. rewrite <- (frozenset_in a), <- (frozenset_in b), E. reflexivity.
  - intros H. apply strict_unique; try apply frozenset_strict. intros x. rewrite !frozenset_in. apply H.
Qed.

Lemma list_eqb_refl a : list_eqb a a = true.
Proof. unfold list_eqb. destruct (list_eq_dec Nat.eq_dec a a); congruence. Qed.
Lemma list_eqb_eq a b : list_eqb a b = true <-> a = b.
Proof. unfold list_eqb. destruct (list_eq_dec Nat.eq_dec a b); split; congruence. Qed.

Lemma assoc_set_get k k' v (c : setcache) : assoc list_eqb k (assoc_set list_eqb k' v c) = if list_eqb k k' then Some v else assoc list_eqb k c.
Proof.
  induction c as [|[k0 v0] c IH]; simpl; [destruct (list_eqb k k'); reflexivity|].
  destruct (list_eqb k' k0) eqn:E0; simpl.
  - apply list_eqb_eq in E0. subst k0. destruct (list_eqb k k'); reflexivity.
  - rewrite IH. destruct (list_eqb k k0) eqn:E1; [|reflexivity]. destruct (list_eqb k k') eqn:E2; [|reflexivity].
    apply list_eqb_eq in E1, E2. subst. rewrite list_eqb_refl in E0. discriminate.
Qed.
Lemma sc_get_add_same v a b c : same_set a b -> sc_get a (sc_add v b c) = Ok v.
Proof.
  intros H. unfold sc_get, sc_add. rewrite assoc_set_get. apply frozenset_eq in H. rewrite H, list_eqb_refl. reflexivity.
Qed.
Lemma sc_get_add_other v a b c : ~ same_set a b -> sc_get a (sc_add v b c) = sc_get a c.
Proof.
  intros H. unfold sc_get, sc_add. rewrite assoc_set_get. destruct (list_eqb (frozenset a) (frozenset b)) eqn:E; [|reflexivity].
  apply list_eqb_eq, frozenset_eq in E. contradiction.
Qed.
Lemma sc_contains_get a c : sc_contains a c = true <-> exists v, sc_get a c = Ok v.
Proof. unfold sc_contains, sc_get. destruct (assoc list_eqb (frozenset a) c); simpl; split; eauto; try discriminate. intros (v & E). discriminate. Qed.
Lemma sc_get_cong a b c : same_set a b -> sc_get a c = sc_get b c.
Proof. intros H. unfold sc_get. apply frozenset_eq in H. rewrite H. reflexivity. Qed.
Lemma same_set_dec a b : {same_set a b} + {~ same_set a b}.
Proof. destruct (list_eq_dec Nat.eq_dec (frozenset a) (frozenset b)) as [H|H]; [left|right]; rewrite <- frozenset_eq; assumption. Qed.

(** ** sets *)
Lemma remove1_in s x y : In y (set_remove1 s x) <-> In y s /\ y <> x.
Proof. unfold set_remove1. rewrite filter_In, negb_true_iff, Nat.eqb_neq. reflexivity. Qed.
Lemma diff_in s t y : In y (set_diff s t) <-> In y s /\ ~ In y t.
Proof. unfold set_diff. rewrite filter_In, negb_true_iff, mem_false. reflexivity. Qed.
Lemma add_in x s y : In y (set_add x s) <-> y = x \/ In y s.
Proof.
  unfold set_add. destruct (mem x s) eqn:E; [apply mem_In in E|rewrite in_app_iff]; simpl; intuition (subst; auto).
Qed.
Lemma add_nodup x s : NoDup s -> NoDup (set_add x s).
Proof.
  intros H. unfold set_add. destruct (mem x s) eqn:E; [assumption|]. apply mem_false in E.
  apply (Permutation_NoDup (Permutation_cons_append s x)). constructor; assumption.
Qed.
Lemma filter_nodup {A} f (l : list A) : NoDup l -> NoDup (filter f l).
Proof.
  induction 1 as [|x l H HN IH]; simpl; [constructor|]. destruct (f x); [|assumption].
  constructor; [rewrite filter_In; tauto|assumption].
Qed.
Lemma remove1_nodup s x : NoDup s -> NoDup (set_remove1 s x).
Proof. apply filter_nodup. Qed.
Lemma diff_nodup s t : NoDup s -> NoDup (set_diff s t).
Proof. apply filter_nodup. Qed.
Lemma iter_in {St} (iter : St -> list nat -> list nat) : (forall st l, Permutation l (iter st l)) -> forall st l x, In x (iter st l) <-> In x l.
Proof. intros H st l x. split; apply Permutation_in; [apply Permutation_sym|]; apply H. Qed.

(** ** combinations *)
Lemma combinations_sound {A} (l : list A) : forall k Z, In Z (combinations k l) -> length Z = k /\ incl Z l /\ (NoDup l -> NoDup Z).
Proof.
  induction l as [|x l IH]; intros k Z H; destruct k as [|k]; simpl in H.
  - destruct H as [<-|[]]. split; [reflexivity|]. split; [intros y []|constructor].
  - contradiction.
  - destruct H as [<-|[]]. split; [reflexivity|]. split; [intros y []|constructor].
  - apply in_app_or in H as [H|H].
    + apply in_map_iff in H as (Z' & <- & H). destruct (IH _ _ H) as (H1 & H2 & H3). simpl. split; [lia|].
      split; [intros y [<-|Hy]; simpl; auto|]. intros HN. inversion HN; subst. constructor; [|auto]. intros Hx. apply H2 in Hx. contradiction.
    + destruct (IH _ _ H) as (H1 & H2 & H3). split; [assumption|]. split; [intros y Hy; right; auto|]. intros HN. inversion HN; auto.
Qed.
Lemma combinations_complete (l : list nat) : NoDup l -> forall W, NoDup W -> incl W l ->
  exists Z, In Z (combinations (length W) l) /\ Permutation Z W.
Proof.
  induction 1 as [|x l Hx HN IH]; intros W HW HI.
  - destruct W as [|w W]; [exists []; simpl; auto|]. exfalso. apply (HI w). left; reflexivity.
  - destruct (in_dec Nat.eq_dec x W) as [Hin|Hnin].
    + apply in_split in Hin as (W1 & W2 & ->). assert (HW' : NoDup (W1 ++ W2)) by (eapply NoDup_remove_1; eauto).
      assert (Hx' : ~ In x (W1 ++ W2)) by (eapply NoDup_remove_2; eauto).
      destruct (IH (W1 ++ W2) HW') as (Z & HZ & HP).
      { intros y Hy. destruct (HI y) as [<-|H]; [|contradiction|assumption]. apply in_app_or in Hy. apply in_or_app. simpl. tauto. }
      exists (x :: Z). split.
      * replace (length (W1 ++ x :: W2)) with (S (length (W1 ++ W2))) by (rewrite !app_length; simpl; lia).
        simpl. apply in_or_app. left. apply in_map. assumption.
      * apply Permutation_trans with (x :: W1 ++ W2); [constructor; assumption|]. apply Permutation_middle.
    + destruct (IH W HW) as (Z & HZ & HP).
      { intros y Hy. destruct (HI y Hy) as [<-|H]; [contradiction|assumption]. }
      exists Z. split; [|assumption]. destruct W as [|w W]; [destruct l; simpl in *; assumption|]. simpl in *. apply in_or_app. right. assumption.
Qed.
