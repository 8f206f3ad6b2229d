(** Facts about d-separation in a DAG that constraint-based discovery rests on. *)
From Verif Require Import Base Graph_Spec Graph_Dsep_Proofs MB_Spec.

Section DAG.
  Variable E : nat -> nat -> Prop.
  Hypothesis Hacyc : acyclic E.

  Lemma no_two_cycle u v : E u v -> ~ E v u.
  Proof. intros H1 H2. apply (Hacyc u). eapply t_trans; apply t_step; eauto. Qed.
  Lemma no_loop u : ~ E u u.
  Proof. intros H. apply (Hacyc u). apply t_step; assumption. Qed.
  Lemma adjacent_sym u v : adjacent E u v -> adjacent E v u. Proof. unfold adjacent; tauto. Qed.

  Lemma trans_refl u v w : clos_trans _ E u v -> descendant E v w -> clos_trans _ E u w.
  Proof. intros H1 H2. induction H2; auto. eapply t_trans; [exact H1|]. apply t_step; assumption. Qed.
  Lemma step_desc u v w : E u v -> descendant E v w -> clos_trans _ E u w.
  Proof. intros H. apply trans_refl, t_step, H. Qed.
  Lemma trans_desc u v : clos_trans _ E u v -> descendant E u v.
  Proof. induction 1; [apply rt_step; assumption|eapply rt_trans; eauto]. Qed.
  Lemma desc_antisym u v : descendant E u v -> descendant E v u -> u = v.
  Proof.
    intros H1 H2. apply clos_rt_rt1n in H1. destruct H1 as [|w v Hw Hv]; [reflexivity|].
    exfalso. apply (Hacyc u). eapply step_desc; [exact Hw|]. eapply rt_trans; [apply clos_rt1n_rt; exact Hv|exact H2].
  Qed.

  (** *** directed paths *)
  Lemma dpath_exists u v : descendant E u v -> exists p, path_from E u p v.
  Proof.
    intros H. apply clos_rt_rt1n in H. induction H as [|a b c H1 _ (p & IH)]; [eexists; constructor|].
    eexists. econstructor; eauto.
  Qed.
  Lemma dpath_head u p v : path_from E u p v -> exists q, p = u :: q.
  Proof. destruct 1; eauto. Qed.
  Lemma path_head R u p v : path_from R u p v -> exists q, p = u :: q.
  Proof. destruct 1; eauto. Qed.
  Lemma dpath_desc u p v : path_from E u p v -> forall w, In w p -> descendant E u w.
  Proof.
    induction 1 as [x|x z p y H1 H2 IH]; intros w [<-|Hw]; try apply rt_refl; [destruct Hw|].
    eapply rt_trans; [apply rt_step; exact H1|apply IH; assumption].
  Qed.
  Lemma dpath_tail_desc u q v : path_from E u (u :: q) v -> forall w, In w q -> clos_trans _ E u w.
  Proof.
    intros H w Hw. inversion H as [|? z p ? H1 H2]; subst; [destruct Hw|].
    eapply step_desc; [exact H1|]. eapply dpath_desc; eauto.
  Qed.
  Lemma dpath_nodup u p v : path_from E u p v -> NoDup p.
  Proof.
    induction 1 as [x|x z p y H1 H2 IH]; [constructor; [intros []|constructor]|].
    constructor; [|assumption]. intros Hin. apply (Hacyc x). eapply step_desc; [exact H1|]. eapply dpath_desc; eauto.
  Qed.
  Lemma path_mono (R R' : nat -> nat -> Prop) u p v : (forall a b, R a b -> R' a b) -> path_from R u p v -> path_from R' u p v.
  Proof. intros H. induction 1; econstructor; eauto. Qed.
  Lemma dpath_simple u p v : path_from E u p v -> simple_path (adjacent E) u p v.
  Proof. intros H. split; [|eapply dpath_nodup; eauto]. eapply path_mono; [|exact H]. left; assumption. Qed.
  Lemma path_triple R u p v : path_from R u p v -> forall p1 a b c p2, p = p1 ++ a :: b :: c :: p2 -> R a b /\ R b c.
  Proof.
    induction 1 as [x|x z p y H1 H2 IH]; intros p1 a b c p2 Ep.
    - destruct p1 as [|? [|]]; discriminate.
    - destruct p1 as [|w p1]; simpl in Ep; injection Ep as -> Ep.
      + subst p. destruct (path_head _ _ _ _ H2) as (q & Eq). injection Eq as <- <-.
        split; [assumption|]. inversion H2 as [|? z' p' ? H3 H4]; subst. destruct (path_head _ _ _ _ H4) as (q' & Eq'). injection Eq' as -> ->. assumption.
      + eapply IH; eauto.
  Qed.
  (** a directed path is blocked only by one of its inner nodes *)
  Lemma dpath_blocked (Z : nat -> Prop) u p v : path_from E u p v -> blocked E Z p ->
    exists p1 a b c p2, p = p1 ++ a :: b :: c :: p2 /\ Z b.
  Proof.
    intros H (p1 & a & b & c & p2 & Ep & Hb). exists p1, a, b, c, p2. split; [assumption|].
    destruct (path_triple _ _ _ _ H _ _ _ _ _ Ep) as (H1 & H2).
    destruct Hb as [((_ & H3) & _)|(_ & H3)]; [|assumption]. exfalso. eapply no_two_cycle; eauto.
  Qed.

  (** *** parents separate a node from its non-descendants *)
  Lemma leaving_downwards T X : forall a b q, path_from (adjacent E) b q X -> E a b -> clos_trans _ E T b -> ~ descendant E T X ->
    exists p1 a' b' c' p2, a :: q = p1 ++ a' :: b' :: c' :: p2 /\ collider E a' b' c' /\ clos_trans _ E T b'.
  Proof.
    intros a b q Hp. revert a. induction Hp as [b|b c q y H1 H2 IH]; intros a Hab HTb Hn.
    - exfalso. apply Hn, trans_desc, HTb.
    - destruct (path_head _ _ _ _ H2) as (q' & ->). destruct H1 as [Hbc|Hcb].
      + destruct (IH b Hbc) as (p1 & a' & b' & c' & p2 & Eq & Hc & HT); [eapply t_trans; [exact HTb|apply t_step; assumption]|assumption|].
        exists (a :: p1), a', b', c', p2. simpl. rewrite Eq. auto.
      + exists [], a, b, c, q'. split; [reflexivity|]. split; [split; assumption|assumption].
  Qed.
  Lemma parents_separate T X (Z : nat -> Prop) : (forall z, Z z <-> E z T) -> X <> T -> ~ adjacent E T X -> ~ descendant E T X -> d_sep E T Z X.
  Proof.
    intros HZ Hne Hna Hnd p (Hp & HN). inversion Hp as [|? b q ? H1 H2]; subst; [congruence|].
    destruct (path_head _ _ _ _ H2) as (q' & ->). destruct H1 as [HTb|HbT].
    - destruct (leaving_downwards T X T b (b :: q') H2 HTb (t_step _ _ _ _ HTb) Hnd) as (p1 & a' & b' & c' & p2 & Eq & Hc & HT).
      exists p1, a', b', c', p2. split; [assumption|]. left. split; [assumption|]. intros d Hd HZd. apply HZ in HZd.
      apply (Hacyc T). eapply t_trans; [eapply trans_refl; eauto|apply t_step; assumption].
    - inversion H2 as [|? c q'' ? H3 H4]; subst; [exfalso; apply Hna; right; assumption|].
      destruct (path_head _ _ _ _ H4) as (q3 & ->). exists [], T, b, c, q3. split; [reflexivity|]. right.
      split; [|apply HZ; assumption]. intros (H & _). eapply no_two_cycle; eauto.
  Qed.

  (** *** spouses *)
  Lemma spouse_not_sep1 T X Y (Z : nat -> Prop) : T <> Y -> E T X -> E Y X -> Z X -> ~ d_sep1 E T Z Y.
  Proof.
    intros Hne HT HY HZ H. destruct (H [T; X; Y]) as (p1 & a & b & c & p2 & Eq & Hb).
    - split.
      + econstructor; [left; exact HT|]. econstructor; [right; exact HY|]. constructor.
      + constructor; [intros [Heq|[Heq|[]]]; [subst; eapply no_loop; eauto|congruence]|].
        constructor; [intros [Heq|[]]; subst; eapply no_loop; eauto|]. constructor; [intros []|constructor].
    - assert (p1 = [] /\ a = T /\ b = X /\ c = Y) as (-> & -> & -> & ->).
      { destruct p1 as [|? [|? [|? p1]]]; simpl in Eq; injection Eq; intros; subst; auto; try discriminate.
        destruct p1; discriminate. }
      destruct Hb as [(_ & Hn & _)|(Hn & _)]; [contradiction|]. apply Hn. split; assumption.
  Qed.

  (** adding X to a separating set that contains a strict descendant of X keeps it separating *)
  Lemma sep_add T Y X W (Z : nat -> Prop) : Z W -> clos_trans _ E X W -> d_sep E T Z Y -> d_sep E T (fun z => z = X \/ Z z) Y.
  Proof.
    intros HW HXW H p Hp. destruct (H p Hp) as (p1 & a & b & c & p2 & Ep & Hb). exists p1, a, b, c, p2. split; [assumption|].
    destruct Hb as [(Hc & Hd)|(Hc & Hb)]; [left|right; auto]. split; [assumption|].
    intros d Hbd [->|HZ]; [|eapply Hd; eauto]. apply (Hd W); [|assumption].
    eapply rt_trans; [exact Hbd|apply trans_desc; assumption].
  Qed.

  (** if S separates T and Y, X is adjacent to T, X not in S, Y is a descendant of X: then S has a
      strict descendant of X *)
  Lemma separator_below T X Y (Z : nat -> Prop) : ~ Z X -> adjacent E T X -> X <> Y -> T <> Y -> descendant E X Y -> d_sep E T Z Y ->
    exists W, Z W /\ clos_trans _ E X W.
  Proof.
    intros HX Ha Hne HTY Hd Hs. destruct (dpath_exists _ _ Hd) as (p & Hp). destruct Ha as [HTX|HXT].
    - assert (Hp' : path_from E T (T :: p) Y) by (econstructor; eauto).
      destruct (dpath_blocked Z T (T :: p) Y Hp' (Hs _ (dpath_simple _ _ _ Hp'))) as (p1 & a & b & c & p2 & Eq & Hb).
      exists b. split; [assumption|]. destruct (dpath_head _ _ _ Hp) as (q & ->).
      assert (Hin : In b (X :: q)).
      { destruct p1 as [|w p1]; simpl in Eq; [injection Eq as <- <- ->; left; reflexivity|]. injection Eq as <- Eq.
        rewrite Eq. apply in_or_app. right. right. left. reflexivity. }
      destruct Hin as [<-|Hin]; [contradiction|]. eapply dpath_tail_desc; eauto.
    - destruct (in_dec Nat.eq_dec T p) as [Hin|Hnin].
      + assert (HTdY : descendant E T Y).
        { clear - Hp Hin. induction Hp as [x|x z p y H1 H2 IH].
          - destruct Hin as [->|[]]. apply rt_refl.
          - destruct Hin as [->|Hin]; [|auto]. eapply rt_trans; [apply rt_step; exact H1|]. eapply dpath_desc; [exact H2|]. clear - H2. induction H2; simpl; auto. }
        destruct (dpath_exists _ _ HTdY) as (p' & Hp').
        destruct (dpath_blocked Z T p' Y Hp' (Hs _ (dpath_simple _ _ _ Hp'))) as (p1 & a & b & c & p2 & Eq & Hb).
        exists b. split; [assumption|]. eapply step_desc; [exact HXT|]. eapply dpath_desc; [exact Hp'|].
        rewrite Eq. apply in_or_app. right. right. left. reflexivity.
      + destruct (dpath_head _ _ _ Hp) as (q & ->).
        assert (Hsp : simple_path (adjacent E) T (T :: X :: q) Y).
        { split; [econstructor; [right; exact HXT|]; apply (dpath_simple _ _ _ Hp)|]. constructor; [assumption|eapply dpath_nodup; eauto]. }
        destruct (Hs _ Hsp) as (p1 & a & b & c & p2 & Eq & Hb). destruct p1 as [|w p1]; simpl in Eq.
        * injection Eq as <- <- ->. exfalso. destruct Hb as [((H & _) & _)|(_ & H)]; [eapply no_two_cycle; eauto|contradiction].
        * injection Eq as <- Eq. destruct (path_triple _ _ _ _ Hp _ _ _ _ _ Eq) as (H1 & H2).
          exists b. split; [destruct Hb as [((_ & H) & _)|(_ & H)]; [exfalso; eapply no_two_cycle; eauto|assumption]|].
          destruct p1 as [|w' p1]; simpl in Eq; injection Eq as <- ->; eapply dpath_tail_desc; [exact Hp|left; reflexivity|exact Hp|].
          apply in_or_app. right. right. left. reflexivity.
  Qed.

  (** Y -> X, X adjacent to T, X not in S, S separates T and Y: then Y is a spouse of T *)
  Lemma separator_above T X Y (Z : nat -> Prop) : ~ Z X -> adjacent E T X -> E Y X -> T <> Y -> d_sep E T Z Y -> E T X.
  Proof.
    intros HX [H|HXT] HY HTY Hs; [assumption|]. exfalso.
    assert (Hp : path_from E Y [Y; X; T] T) by (econstructor; [exact HY|]; econstructor; [exact HXT|constructor]).
    apply d_sep_sym in Hs. destruct (dpath_blocked Z Y _ T Hp (Hs _ (dpath_simple _ _ _ Hp))) as (p1 & a & b & c & p2 & Eq & Hb).
    assert (b = X) by (destruct p1 as [|? [|? [|? p1]]]; simpl in Eq; injection Eq; intros; subst; auto; try discriminate; destruct p1; discriminate).
    subst. contradiction.
  Qed.

  (** *** the Markov boundary separates *)
  Lemma boundary_separates T X (Z : nat -> Prop) : (forall z, markov_boundary E T z -> Z z) -> ~ Z T -> ~ Z X -> X <> T -> d_sep E T Z X.
  Proof.
    intros HZ HT HX Hne p (Hp & HN). inversion Hp as [|? b q ? H1 H2]; subst; [congruence|].
    assert (HbZ : Z b) by (apply HZ; left; assumption).
    inversion H2 as [|? c q' ? H3 H4]; subst; [contradiction|].
    destruct (path_head _ _ _ _ H4) as (q2 & ->).
    assert (Hcase : collider E T b c \/ ~ collider E T b c).
    { unfold collider. destruct H1 as [HTb|HbT]; [|right; intros (H & _); eapply no_two_cycle; eauto].
      destruct H3 as [Hbc|Hcb]; [right; intros (_ & H); eapply no_two_cycle; eauto|left; auto]. }
    destruct Hcase as [(HTb & Hcb)|Hnc].
    - assert (HcT : c <> T) by (intros ->; inversion HN as [|? ? Hn _]; apply Hn; right; left; reflexivity).
      assert (HcZ : Z c) by (apply HZ; right; split; [assumption|]; exists b; auto).
      inversion H4 as [|? d q3 ? H5 H6]; subst; [contradiction|]. destruct (path_head _ _ _ _ H6) as (q4 & ->).
      exists [T], b, c, d, q4. split; [reflexivity|]. right. split; [|assumption]. intros (H & _). eapply no_two_cycle; eauto.
    - exists [], T, b, c, q2. split; [reflexivity|]. right. auto.
  Qed.
End DAG.
