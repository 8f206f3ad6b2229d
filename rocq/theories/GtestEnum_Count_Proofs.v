From Verif Require Import Base MB_Model MB_Cache_Proofs Sources_Model Sources_Proofs GtestEnum_Model GtestEnum_Spec GtestEnum_Proofs.
Open Scope nat_scope.

(** ** pairs of a list *)
Fixpoint pairs (l : list nat) : list (nat * nat) :=
  match l with [] => [] | x :: l' => map (pair x) l' ++ pairs l' end.
Lemma pairs_In l : StronglySorted lt l -> forall x y, In (x, y) (pairs l) <-> x < y /\ In x l /\ In y l.
Proof.
  induction 1 as [|a l S IH H]; intros x y; cbn [pairs In]; [tauto|].
  rewrite Forall_forall in H. rewrite in_app_iff, in_map_iff, IH. split.
  - intros [(z & E & I) | (L & I1 & I2)]; [|tauto].
    assert (x = a) as -> by congruence. assert (y = z) as -> by congruence. specialize (H _ I). tauto.
  - intros (L & [<- | Ix] & [<- | Iy]); [lia| | |tauto].
    + left. exists y. tauto.
    + specialize (H _ Ix). lia.
Qed.
Lemma pairs_NoDup l : NoDup l -> NoDup (pairs l).
Proof.
  induction 1 as [|a l Ha N IH]; cbn [pairs]; [constructor|]. apply NoDup_app2; [|assumption|].
  - apply FinFun.Injective_map_NoDup; [|assumption]. intros x y E. congruence.
  - intros (x, y) I1 I2. apply in_map_iff in I1. destruct I1 as (z & E & _). assert (x = a) as -> by congruence.
    assert (G : forall m u v, In (u, v) (pairs m) -> In u m).
    { clear. induction m as [|b m IH]; cbn [pairs]; [intros ? ? []|]. intros u v H. apply in_app_or in H. destruct H as [H|H].
      - apply in_map_iff in H. destruct H as (z & E & _). left. congruence.
      - right. eapply IH. eassumption. }
    apply Ha. eapply G. eassumption.
Qed.
Definition count (p : nat -> bool) (l : list nat) : nat := length (filter p l).
Lemma count_negb p l : count p l + count (fun x => negb (p x)) l = length l.
Proof.
  unfold count. induction l as [|a l IH]; cbn [filter length]; [reflexivity|].
  destruct (p a); cbn [negb length]; lia.
Qed.
Lemma filter_pair_head (q : nat * nat -> bool) a l : length (filter q (map (pair a) l)) = count (fun y => q (a, y)) l.
Proof. unfold count. induction l as [|b l IH]; cbn [map filter]; [reflexivity|]. destruct (q (a, b)); cbn [length]; lia. Qed.
Lemma count_ext p q l : (forall x, p x = q x) -> count p l = count q l.
Proof. intros H. unfold count. induction l as [|a l IH]; cbn [filter]; [reflexivity|]. rewrite <- H. destruct (p a); cbn [length]; lia. Qed.
Lemma count_false l : count (fun _ => false) l = 0.
Proof. unfold count. induction l; cbn [filter length]; auto. Qed.
Lemma count_true l : count (fun _ => true) l = length l.
Proof. unfold count. induction l; cbn [filter length]; auto. Qed.
Lemma filter_app_length {A} (q : A -> bool) a b : length (filter q (a ++ b)) = length (filter q a) + length (filter q b).
Proof. rewrite filter_app, app_length. reflexivity. Qed.
Lemma pairs_both p l : 2 * length (filter (fun q => p (fst q) && p (snd q)) (pairs l)) = count p l * (count p l - 1).
Proof.
  induction l as [|a l IH]; cbn [pairs]; [reflexivity|]. rewrite filter_app_length, filter_pair_head. cbn [fst snd].
  unfold count at 2 3. cbn [filter]. destruct (p a); cbn [andb length]; fold (count p l).
  - destruct (count p l) as [|n] eqn:E; fold (count (fun y => p y) l).
    + change (count (fun y : nat => p y) l) with (count p l). lia.
    + change (count (fun y : nat => p y) l) with (count p l). nia.
  - rewrite count_false. lia.
Qed.
Lemma pairs_mixed p l : length (filter (fun q => xorb (p (fst q)) (p (snd q))) (pairs l)) = count p l * count (fun x => negb (p x)) l.
Proof.
  induction l as [|a l IH]; cbn [pairs]; [reflexivity|]. rewrite filter_app_length, filter_pair_head, IH. cbn [fst snd].
  unfold count at 4 5. cbn [filter]. destruct (p a); cbn [negb length]; fold (count p l); fold (count (fun x => negb (p x)) l).
  - rewrite (count_ext (fun y => xorb true (p y)) (fun x => negb (p x))); [nia|]. intros x. destruct (p x); reflexivity.
  - rewrite (count_ext (fun y => xorb false (p y)) p); [nia|]. intros x. destruct (p x); reflexivity.
Qed.
Lemma pairs_length l : 2 * length (pairs l) = length l * (length l - 1).
Proof.
  pose proof (pairs_both (fun _ => true) l) as H. rewrite count_true in H. rewrite <- H. f_equal. f_equal.
  generalize (pairs l). induction l0; cbn [filter]; [reflexivity|]. cbn [andb]. f_equal. assumption.
Qed.
Lemma half_pairs n k : 2 * k = n * (n - 1) -> k = pairs_of n.
Proof. intros H. unfold pairs_of. rewrite <- H, Nat.mul_comm, Nat.div_mul; lia. Qed.

(** ** the tests that need a term: one for each pair of features *)
Definition drop2 (x y : nat) (J : list nat) : list nat := filter (fun z => negb (z =? x) && negb (z =? y)) J.
Lemma drop2_In x y J z : In z (drop2 x y J) <-> In z J /\ z <> x /\ z <> y.
Proof.
  unfold drop2. rewrite filter_In, andb_true_iff, !negb_true_iff, !Nat.eqb_neq. tauto.
Qed.
Lemma filter_strict q l : StronglySorted lt l -> StronglySorted lt (filter q l).
Proof.
  induction 1 as [|a l S IH H]; cbn [filter]; [constructor|]. destruct (q a); [|assumption]. constructor; [assumption|].
  rewrite Forall_forall in *. intros z Hz. apply filter_In in Hz. apply H. apply Hz.
Qed.
Definition inb (J : list nat) (x : nat) : bool := if in_dec Nat.eq_dec x J then true else false.
Lemma drop1_length x J : NoDup J -> length (filter (fun z => negb (z =? x)) J) + (if inb J x then 1 else 0) = length J.
Proof.
  induction 1 as [|a J Ha N IH]; [reflexivity|]. cbn [filter].
  unfold inb in *. destruct (Nat.eqb_spec a x) as [->|Nx]; cbn [negb length].
  - destruct (in_dec Nat.eq_dec x (x :: J)) as [_|C]; [|exfalso; apply C; left; reflexivity].
    destruct (in_dec Nat.eq_dec x J) as [I|_]; [contradiction|]. lia.
  - destruct (in_dec Nat.eq_dec x (a :: J)) as [I|NI], (in_dec Nat.eq_dec x J) as [I'|NI'].
    + lia.
    + destruct I; [congruence|contradiction].
    + exfalso. apply NI. right. assumption.
    + lia.
Qed.
Lemma drop2_length x y J : NoDup J -> x <> y ->
  length (drop2 x y J) + (if inb J x then 1 else 0) + (if inb J y then 1 else 0) = length J.
Proof.
  intros N Nxy. rewrite <- (drop1_length x J N).
  assert (N1 : NoDup (filter (fun z => negb (z =? x)) J)) by (apply NoDup_filter; assumption).
  rewrite <- (drop1_length y _ N1).
  assert (E : drop2 x y J = filter (fun z => negb (z =? y)) (filter (fun z => negb (z =? x)) J)).
  { unfold drop2. clear. induction J as [|a J IH]; cbn [filter]; [reflexivity|].
    destruct (a =? x); cbn [negb andb filter]; [assumption|]. destruct (a =? y); cbn [negb]; congruence. }
  rewrite E.
  assert (Eb : inb (filter (fun z => negb (z =? x)) J) y = inb J y).
  { unfold inb. destruct (in_dec Nat.eq_dec y (filter _ J)) as [I|NI], (in_dec Nat.eq_dec y J) as [I'|NI']; try reflexivity; exfalso.
    - apply filter_In in I. destruct I. contradiction.
    - apply NI. apply filter_In. split; [assumption|]. apply negb_true_iff, Nat.eqb_neq. congruence. }
  rewrite Eb. lia.
Qed.

Section Terms.
  Variable F J : list nat.
  Variable HF : NoDup F.
  Variable SJ : StronglySorted lt J.
  Variable IJ : incl J F.
  Let Fs := sort_nat F.

  Lemma need_Z t : is_test F t -> needs t J -> tZ t = drop2 (tX t) (tY t) J.
  Proof.
    intros (L & _ & _ & S & HZ) N. apply strict_unique; [assumption|apply filter_strict; assumption|].
    intros v. rewrite drop2_In. unfold needs in N. split.
    - intros I. pose proof (HZ v I). destruct N as [N | [N | [N | N]]]; rewrite N; tauto.
    - intros (I & N1 & N2). destruct N as [N | [N | [N | N]]]; apply N in I; tauto.
  Qed.
  Lemma need_of_pair x y : x < y -> In x F -> In y F ->
    is_test F (Test x y (drop2 x y J)) /\ needs (Test x y (drop2 x y J)) J.
  Proof.
    intros L Ix Iy. split.
    - split; [exact L|]. split; [assumption|]. split; [assumption|]. split; [apply filter_strict; assumption|].
      cbn [tX tY tZ]. intros z Hz. apply drop2_In in Hz. destruct Hz as (I & N). split; [apply IJ; assumption|assumption].
    - unfold needs. cbn [tX tY tZ].
      destruct (in_dec Nat.eq_dec x J) as [Jx|Jx], (in_dec Nat.eq_dec y J) as [Jy|Jy].
      + right. right. left. intros v. rewrite drop2_In. split; [|intros [?|[->| ->]]; tauto].
        destruct (Nat.eq_dec v x), (Nat.eq_dec v y); tauto.
      + left. intros v. rewrite drop2_In. split; [|intros [?| ->]; tauto].
        destruct (Nat.eq_dec v x); [tauto|]. intros I. left. split; [assumption|]. split; [assumption|]. intros ->. contradiction.
      + right. left. intros v. rewrite drop2_In. split; [|intros [?| ->]; tauto].
        destruct (Nat.eq_dec v y); [tauto|]. intros I. left. split; [assumption|]. split; [|assumption]. intros ->. contradiction.
      + right. right. right. intros v. rewrite drop2_In. split; [|tauto]. intros I.
        split; [assumption|]. split; intros ->; contradiction.
  Qed.
  (** the tests that need J, one for each pair *)
  Definition needing (q : nat * nat -> bool) : list test :=
    map (fun xy => Test (fst xy) (snd xy) (drop2 (fst xy) (snd xy) J)) (filter q (pairs Fs)).
  Lemma Fs_strict : StronglySorted lt Fs. Proof. apply sort_strict; assumption. Qed.
  Lemma needing_NoDup q : NoDup (needing q).
  Proof.
    apply FinFun.Injective_map_NoDup.
    - intros (a, b) (c, d) E. cbn [fst snd] in E. assert (E1 := f_equal tX E). assert (E2 := f_equal tY E). cbn [tX tY] in *. congruence.
    - apply NoDup_filter, pairs_NoDup, NoDup_strict, Fs_strict.
  Qed.
  Lemma needing_In q t : In t (needing q) <-> is_test F t /\ needs t J /\ q (tX t, tY t) = true.
  Proof.
    unfold needing. rewrite in_map_iff. split.
    - intros ((x, y) & <- & H). apply filter_In in H. destruct H as (H & Q).
      apply (pairs_In _ Fs_strict) in H. destruct H as (L & Ix & Iy). unfold Fs in *. rewrite sort_in in Ix, Iy.
      cbn [fst snd tX tY]. destruct (need_of_pair x y L Ix Iy). auto.
    - intros (T & N & Q). exists (tX t, tY t). split.
      + cbn [fst snd]. rewrite <- (need_Z t T N). destruct t; reflexivity.
      + apply filter_In. split; [|assumption]. apply (pairs_In _ Fs_strict). destruct T as (L & Ix & Iy & _).
        unfold Fs. rewrite !sort_in. auto.
  Qed.
  Lemma needing_size t : is_test F t -> needs t J ->
    length (tZ t) + (if inb J (tX t) then 1 else 0) + (if inb J (tY t) then 1 else 0) = length J.
  Proof.
    intros T N. rewrite (need_Z t T N). apply drop2_length; [apply NoDup_strict; assumption|]. destruct T. lia.
  Qed.
  Lemma count_in : count (inb J) Fs = length J.
  Proof.
    unfold count. assert (E : filter (inb J) Fs = J); [|rewrite E; reflexivity].
    apply strict_unique; [apply filter_strict, Fs_strict|assumption|].
    intros v. rewrite filter_In. unfold Fs, inb. rewrite sort_in.
    destruct (in_dec Nat.eq_dec v J) as [I|I]; split; try tauto; [intros _; split; [apply IJ; assumption|reflexivity]|].
    intros (_ & E). discriminate E.
  Qed.
  Lemma Fs_length : length Fs = length F.
  Proof. apply Permutation_length, Permutation_sym, sort_perm. Qed.
  Lemma count_out : count (fun x => negb (inb J x)) Fs = length F - length J.
  Proof. pose proof (count_negb (inb J) Fs) as H. rewrite count_in, Fs_length in H. lia. Qed.

  Lemma exactly_needing q n P : length (filter q (pairs Fs)) = n ->
    (forall t, is_test F t -> needs t J -> (q (tX t, tY t) = true <-> P t)) ->
    exactly n (fun t => is_test F t /\ needs t J /\ P t).
  Proof.
    intros L H. exists (needing q). split; [apply needing_NoDup|]. split; [unfold needing; rewrite map_length; exact L|].
    intros t. rewrite needing_In. split; intros (T & N & Q); (split; [assumption|]; split; [assumption|]); apply H; assumption.
  Qed.
  Lemma need_total : exactly (pairs_of (length F)) (fun t => is_test F t /\ needs t J /\ True).
  Proof.
    apply exactly_needing with (q := fun _ => true); [|tauto].
    rewrite <- Fs_length. apply half_pairs. rewrite <- pairs_length. f_equal. f_equal.
    generalize (pairs Fs). induction l as [|a l IH]; cbn [filter]; congruence.
  Qed.
  Lemma need_both : exactly (pairs_of (length J)) (fun t => is_test F t /\ needs t J /\ length (tZ t) + 2 = length J).
  Proof.
    apply exactly_needing with (q := fun q => inb J (fst q) && inb J (snd q)).
    - apply half_pairs. rewrite <- count_in. apply pairs_both.
    - intros t T N. cbn [fst snd]. pose proof (needing_size t T N). destruct (inb J (tX t)), (inb J (tY t)); cbn [andb]; split; intros; try reflexivity; try discriminate; lia.
  Qed.
  Lemma need_one : exactly (length J * (length F - length J)) (fun t => is_test F t /\ needs t J /\ length (tZ t) + 1 = length J).
  Proof.
    apply exactly_needing with (q := fun q => xorb (inb J (fst q)) (inb J (snd q))).
    - rewrite pairs_mixed, count_in, count_out. reflexivity.
    - intros t T N. cbn [fst snd]. pose proof (needing_size t T N). destruct (inb J (tX t)), (inb J (tY t)); cbn [xorb]; split; intros; try reflexivity; try discriminate; lia.
  Qed.
  Lemma need_none : exactly (pairs_of (length F - length J)) (fun t => is_test F t /\ needs t J /\ length (tZ t) = length J).
  Proof.
    apply exactly_needing with (q := fun q => negb (inb J (fst q)) && negb (inb J (snd q))).
    - apply half_pairs. rewrite <- count_out. apply (pairs_both (fun x => negb (inb J x))).
    - intros t T N. cbn [fst snd]. pose proof (needing_size t T N). destruct (inb J (tX t)), (inb J (tY t)); cbn [negb andb]; split; intros; try reflexivity; try discriminate; lia.
  Qed.
End Terms.
