From Verif Require Import Base MB_Model MB_Cache_Proofs Sources_Model Sources_Proofs GtestEnum_Model GtestEnum_Spec GtestEnum_Proofs GtestEnum_Count_Proofs.
Open Scope nat_scope.

(** ** how many tests there are *)
Lemma exactly_length n (P : test -> Prop) l : exactly n P -> NoDup l -> (forall t, In t l <-> P t) -> length l = n.
Proof.
  intros (l' & N & L & H) N' H'. rewrite <- L. apply Permutation_length. apply NoDup_Permutation; [assumption|assumption|].
  intros t. rewrite H, H'. tauto.
Qed.
Lemma combinations_length {A} (l : list A) : forall k, length (combinations k l) = choose (length l) k.
Proof.
  induction l as [|x l IH]; intros k; destruct k as [|k]; try reflexivity.
  cbn [combinations length choose]. rewrite app_length, map_length, !IH. reflexivity.
Qed.
Lemma combinations_strict l : StronglySorted lt l -> forall k Z, In Z (combinations k l) -> StronglySorted lt Z.
Proof.
  induction 1 as [|a l S IH H]; intros k Z HZ; destruct k as [|k]; try (cbn in HZ; destruct HZ as [<- | []]; constructor); [destruct HZ|].
  cbn [combinations] in HZ. apply in_app_or in HZ. destruct HZ as [HZ|HZ]; [|eapply IH; eassumption].
  apply in_map_iff in HZ. destruct HZ as (W & <- & HW). constructor; [eapply IH; eassumption|].
  destruct (combinations_sound l k W HW) as (_ & I & _). rewrite Forall_forall in *. auto.
Qed.
Fixpoint sublists (l : list nat) : list (list nat) :=
  match l with [] => [[]] | x :: l' => map (cons x) (sublists l') ++ sublists l' end.
Lemma sublists_length l : length (sublists l) = 2 ^ length l.
Proof. induction l; cbn [sublists length Nat.pow]; [reflexivity|]. rewrite app_length, map_length. lia. Qed.
Lemma sublists_In l : StronglySorted lt l -> forall Z, In Z (sublists l) <-> StronglySorted lt Z /\ incl Z l.
Proof.
  induction 1 as [|a l S IH H]; intros Z; cbn [sublists].
  - cbn [In]. split.
    + intros [<- | []]. split; [constructor|intros x []].
    + intros (_ & I). left. destruct Z as [|z Z]; [reflexivity|]. destruct (I z). left. reflexivity.
  - rewrite in_app_iff, in_map_iff. rewrite Forall_forall in H. split.
    + intros [(W & <- & HW) | HZ].
      * apply IH in HW. destruct HW as (SW & IW). split; [constructor; [assumption|]; rewrite Forall_forall; auto|].
        intros x [<- | I]; [left; reflexivity|right; auto].
      * apply IH in HZ. destruct HZ as (SZ & IZ). split; [assumption|]. intros x I. right. auto.
    + intros (SZ & IZ). destruct (in_dec Nat.eq_dec a Z) as [I|N].
      * left. destruct Z as [|z Z]; [destruct I|]. inversion SZ as [|? ? SZ' HZ]; subst. rewrite Forall_forall in HZ.
        assert (z = a) as ->.
        { destruct I as [?|I]; [assumption|]. specialize (HZ _ I). destruct (IZ z (or_introl eq_refl)) as [?|J]; [congruence|]. specialize (H _ J). lia. }
        exists Z. split; [reflexivity|]. apply IH. split; [assumption|]. intros x J.
        destruct (IZ x (or_intror J)) as [<-|?]; [|assumption]. specialize (HZ _ J). lia.
      * right. apply IH. split; [assumption|]. intros x J. destruct (IZ x J) as [<-|?]; [contradiction|assumption].
Qed.
Lemma sublists_NoDup l : NoDup l -> NoDup (sublists l).
Proof.
  induction 1 as [|a l Ha N IH]; cbn [sublists]; [repeat constructor; intros []|]. apply NoDup_app2; [|assumption|].
  - apply FinFun.Injective_map_NoDup; [|assumption]. intros x y E. congruence.
  - intros Z HZ HZ'. apply in_map_iff in HZ. destruct HZ as (W & <- & _).
    assert (G : forall m V, In V (sublists m) -> incl V m).
    { clear. induction m as [|b m IH]; cbn [sublists]; intros V HV; [destruct HV as [<- | []]; intros x []|].
      apply in_app_or in HV. destruct HV as [HV|HV].
      - apply in_map_iff in HV. destruct HV as (W & <- & HW). intros x [<- | I]; [left; reflexivity|right; eapply IH; eassumption].
      - intros x I. right. eapply IH; eassumption. }
    apply Ha. apply (G _ _ HZ'). left. reflexivity.
Qed.

Section Number.
  Variable F : list nat.
  Variable HF : NoDup F.
  Let Fs := sort_nat F.
  Variable sub : list nat -> list (list nat).
  Variable P : list nat -> Prop.
  Variable n : nat.
  Variable sub_NoDup : forall l, StronglySorted lt l -> NoDup (sub l).
  Variable sub_In : forall l, StronglySorted lt l -> forall Z, In Z (sub l) <-> StronglySorted lt Z /\ incl Z l /\ P Z.
  Variable sub_length : forall l, length l = length F - 2 -> length (sub l) = n.
  Lemma number : exactly (pairs_of (length F) * n) (fun t => is_test F t /\ P (tZ t)).
  Proof.
    assert (SF : StronglySorted lt Fs) by (apply sort_strict; assumption).
    assert (SD : forall x y, StronglySorted lt (drop2 x y Fs)) by (intros; apply filter_strict; assumption).
    exists (flat_map (fun xy => map (Test (fst xy) (snd xy)) (sub (drop2 (fst xy) (snd xy) Fs))) (pairs Fs)). split; [|split].
    - apply NoDup_flat; [apply pairs_NoDup, NoDup_strict; assumption| |].
      + intros (x, y) _. apply FinFun.Injective_map_NoDup; [|apply sub_NoDup, SD].
        intros a b E. apply (f_equal tZ) in E. exact E.
      + intros (x, y) (a, b) t _ _ H1 H2. apply in_map_iff in H1. apply in_map_iff in H2.
        destruct H1 as (Z & <- & _), H2 as (W & E & _). cbn [fst snd] in E.
        assert (E1 := f_equal tX E). assert (E2 := f_equal tY E). cbn [tX tY] in *. congruence.
    - assert (G : forall ps, (forall x y, In (x, y) ps -> x <> y /\ In x Fs /\ In y Fs) ->
        length (flat_map (fun xy => map (Test (fst xy) (snd xy)) (sub (drop2 (fst xy) (snd xy) Fs))) ps) = length ps * n).
      { induction ps as [|(x, y) ps IH]; intros HP; [reflexivity|]. cbn [flat_map length fst snd].
        rewrite app_length, map_length, IH by (intros; apply HP; right; assumption).
        rewrite sub_length; [lia|]. destruct (HP x y (or_introl eq_refl)) as (Nxy & Ix & Iy).
        pose proof (drop2_length x y Fs (NoDup_strict _ SF) Nxy) as D. unfold inb in D.
        destruct (in_dec Nat.eq_dec x Fs); [|contradiction]. destruct (in_dec Nat.eq_dec y Fs); [|contradiction].
        unfold Fs in D at 2. rewrite <- (Permutation_length (sort_perm F)) in D. lia. }
      rewrite G.
      + f_equal. apply half_pairs. rewrite pairs_length. unfold Fs. rewrite <- (Permutation_length (sort_perm F)). reflexivity.
      + intros x y H. apply (pairs_In _ SF) in H. destruct H as (L & Ix & Iy). split; [lia|]. split; assumption.
    - intros t. rewrite in_flat_map. split.
      + intros ((x, y) & HP & H). apply (pairs_In _ SF) in HP. destruct HP as (L & Ix & Iy). unfold Fs in Ix, Iy. rewrite sort_in in Ix, Iy.
        apply in_map_iff in H. destruct H as (Z & <- & HZ). apply sub_In in HZ; [|apply SD]. destruct HZ as (SZ & IZ & PZ).
        cbn [fst snd tX tY tZ] in *. split; [|assumption]. split; [exact L|]. split; [assumption|]. split; [assumption|]. split; [assumption|].
        cbn [tX tY tZ]. intros z Hz. apply IZ in Hz. apply drop2_In in Hz. unfold Fs in Hz. rewrite sort_in in Hz. tauto.
      + intros ((L & Ix & Iy & SZ & HZ) & PZ). exists (tX t, tY t). split.
        * apply (pairs_In _ SF). unfold Fs. rewrite !sort_in. auto.
        * cbn [fst snd]. apply in_map_iff. exists (tZ t). split; [destruct t; reflexivity|].
          apply sub_In; [apply SD|]. split; [assumption|]. split; [|assumption].
          intros z Hz. apply drop2_In. unfold Fs. rewrite sort_in. apply HZ. assumption.
  Qed.
End Number.

Lemma number_all F : NoDup F -> exactly (pairs_of (length F) * 2 ^ (length F - 2)) (fun t => is_test F t /\ True).
Proof.
  intros HF. apply (number F HF sublists (fun _ => True)).
  - intros l S. apply sublists_NoDup, NoDup_strict. assumption.
  - intros l S Z. rewrite sublists_In by assumption. tauto.
  - intros l E. rewrite sublists_length, E. reflexivity.
Qed.
Lemma number_size F k : NoDup F -> exactly (pairs_of (length F) * choose (length F - 2) k) (fun t => is_test F t /\ length (tZ t) = k).
Proof.
  intros HF. apply (number F HF (combinations k) (fun Z => length Z = k)).
  - intros l S. apply combinations_NoDup, NoDup_strict. assumption.
  - intros l S Z. split.
    + intros H. destruct (combinations_sound l k Z H) as (L & I & _). split; [exact (combinations_strict l S _ Z H)|]. split; assumption.
    + intros (SZ & I & <-). destruct (combinations_complete l (NoDup_strict _ S) Z (NoDup_strict _ SZ) I) as (W & HW & PW).
      assert (W = Z) as <-; [|assumption]. apply strict_unique; [exact (combinations_strict l S _ W HW)|assumption|].
      intros v. split; apply Permutation_in; [assumption|apply Permutation_sym; assumption].
  - intros l E. rewrite combinations_length, E. reflexivity.
Qed.

(** ** the dictionaries *)
Section Dict.
  Context {K V : Type}.
  Variable eqb : K -> K -> bool.
  Variable eqb_spec : forall a b, eqb a b = true <-> a = b.
  Lemma assoc_put k (v : V) d k' : assoc eqb k' (assoc_set eqb k v d) = if eqb k' k then Some v else assoc eqb k' d.
  Proof.
    induction d as [|(a, w) d IH]; cbn [assoc_set assoc]; [reflexivity|].
    destruct (eqb k a) eqn:E; cbn [assoc].
    - apply eqb_spec in E. subst a. destruct (eqb k' k); reflexivity.
    - rewrite IH. destruct (eqb k' a) eqn:E1, (eqb k' k) eqn:E2; try reflexivity.
      exfalso. apply eqb_spec in E1. apply eqb_spec in E2. assert (eqb k a = true) by (apply eqb_spec; congruence). congruence.
  Qed.
  Lemma keys_put k (v : V) d : NoDup (map fst d) -> NoDup (map fst (assoc_set eqb k v d)) /\ (forall x, In x (map fst (assoc_set eqb k v d)) <-> x = k \/ In x (map fst d)).
  Proof.
    induction d as [|(a, w) d IH]; cbn [assoc_set map fst]; intros N.
    - split; [repeat constructor; intros []|]. intros x. cbn [In]. intuition (subst; auto).
    - inversion N as [|? ? Na Nd]; subst. destruct (eqb k a) eqn:E; cbn [map fst].
      + apply eqb_spec in E. subst a. split; [constructor; assumption|]. intros x. cbn [In]. intuition (subst; auto).
      + destruct (IH Nd) as (N1 & H1). split.
        * constructor; [|assumption]. rewrite H1. intros [->|I]; [|contradiction].
          assert (eqb k k = true) by (apply eqb_spec; reflexivity). congruence.
        * intros x. cbn [In]. rewrite H1. tauto.
  Qed.
  Lemma assoc_key d k : assoc eqb k d <> None <-> In k (map (@fst K V) d).
  Proof.
    induction d as [|(a, w) d IH]; cbn [assoc map fst In]; [tauto|].
    destruct (eqb k a) eqn:E.
    - apply eqb_spec in E. subst a. split; [auto|congruence].
    - rewrite IH. split; [auto|]. intros [->|I]; [|assumption]. assert (eqb k k = true) by (apply eqb_spec; reflexivity). congruence.
  Qed.
  Lemma assoc_entry d k (v : V) : NoDup (map fst d) -> (assoc eqb k d = Some v <-> In (k, v) d).
  Proof.
    induction d as [|(a, w) d IH]; cbn [assoc map fst]; intros N; [split; [discriminate|intros []]|].
    inversion N as [|? ? Na Nd]; subst. destruct (eqb k a) eqn:E.
    - apply eqb_spec in E. subst a. split; [left; congruence|]. intros [E|I]; [congruence|].
      exfalso. apply Na. apply (in_map fst) in I. exact I.
    - rewrite (IH Nd). split; [right; assumption|]. intros [E1|I]; [|assumption].
      assert (eqb a a = true) by (apply eqb_spec; reflexivity). congruence.
  Qed.
End Dict.
Lemma set_eqb_spec a b : set_eqb a b = true <-> a = b.
Proof. unfold set_eqb. destruct (list_eq_dec Nat.eq_dec a b); split; congruence. Qed.
Lemma nat_eqb_spec a b : Nat.eqb a b = true <-> a = b.
Proof. apply Nat.eqb_eq. Qed.

(** counting with count_up *)
Definition positive (n : nat) : option nat := match n with 0 => None | _ => Some n end.
Lemma counted {A K} (eqb : K -> K -> bool) (Heqb : forall a b, eqb a b = true <-> a = b) (f : A -> K) l :
  let d := fold_left (fun d t => count_up eqb d (f t)) l [] in
  NoDup (map fst d) /\ (forall k, assoc eqb k d = positive (length (filter (fun t => eqb k (f t)) l))).
Proof.
  induction l as [|t l IH] using rev_ind; cbn zeta; [split; [constructor|reflexivity]|].
  rewrite fold_left_app. cbn [fold_left]. set (d := fold_left (fun d t => count_up eqb d (f t)) l []) in *. destruct IH as (N & H).
  split; [apply keys_put; assumption|]. intros k. unfold count_up. rewrite assoc_put by assumption.
  rewrite filter_app, app_length. cbn [filter]. destruct (eqb k (f t)) eqn:E; cbn [length].
  - apply Heqb in E. subst k. rewrite H. rewrite Nat.add_1_r. destruct (length (filter _ l)); reflexivity.
  - rewrite Nat.add_0_r. apply H.
Qed.
Lemma fold_add (d : list (nat * nat)) : forall s, fold_left (fun s e => s + snd e) d s = s + sum_values d.
Proof.
  unfold sum_values. induction d as [|e d IH]; intros s; cbn [fold_left]; [lia|]. rewrite IH, (IH (0 + snd e)). lia.
Qed.
Lemma sum_cons e d : sum_values (e :: d) = snd e + sum_values d.
Proof. unfold sum_values at 1. cbn [fold_left]. rewrite fold_add. lia. Qed.
Lemma sum_count_up d k : NoDup (map fst d) -> sum_values (count_up Nat.eqb d k) = S (sum_values d).
Proof.
  unfold count_up. induction d as [|(a, w) d IH]; intros N; cbn [assoc assoc_set]; [reflexivity|].
  inversion N as [|? ? Na Nd]; subst. destruct (Nat.eqb_spec k a) as [->|Nk]; rewrite !sum_cons; cbn [snd]; [lia|].
  rewrite IH by assumption. lia.
Qed.
Lemma sum_counted (l : list test) : sum_values (fold_left (fun d t => count_up Nat.eqb d (length (tZ t))) l []) = length l.
Proof.
  induction l as [|t l IH] using rev_ind; [reflexivity|]. rewrite fold_left_app, app_length. cbn [fold_left length].
  rewrite sum_count_up, IH; [lia|]. apply (counted Nat.eqb nat_eqb_spec (fun t => length (tZ t)) l).
Qed.

(** ** the terms of a test *)
Lemma terms_needs t J : StronglySorted lt J -> StronglySorted lt (tZ t) -> (In J (joint_entropy_terms t) <-> needs t J).
Proof.
  intros SJ SZ. unfold joint_entropy_terms, needs. cbn [In].
  assert (G : forall l, frozenset l = J <-> (forall v, In v J <-> In v l)).
  { intros l. split.
    - intros <- v. apply frozenset_in.
    - intros H. apply strict_unique; [apply frozenset_strict|assumption|]. intros v. rewrite frozenset_in. symmetry. apply H. }
  unfold tXZ, tYZ, tXYZ. rewrite !G.
  assert (G2 : tZ t = J <-> (forall v, In v J <-> In v (tZ t))).
  { split; [intros <-; tauto|]. intros H. apply strict_unique; [assumption|assumption|]. intros v. symmetry. apply H. }
  rewrite G2.
  assert (E : forall (P Q : nat -> Prop), (forall v, P v <-> Q v) -> ((forall v, In v J <-> P v) <-> (forall v, In v J <-> Q v))).
  { intros P Q H. split; intros H' v; rewrite H'; [apply H|symmetry; apply H]. }
  rewrite (E (fun v => In v (tZ t ++ [tX t])) (fun v => In v (tZ t) \/ v = tX t)),
          (E (fun v => In v (tZ t ++ [tY t])) (fun v => In v (tZ t) \/ v = tY t)),
          (E (fun v => In v (tZ t ++ [tX t] ++ [tY t])) (fun v => In v (tZ t) \/ v = tX t \/ v = tY t)); [tauto| | |];
    intros v; rewrite !in_app_iff; cbn [In]; intuition congruence.
Qed.
Lemma terms_NoDup F t : is_test F t -> NoDup (joint_entropy_terms t).
Proof.
  intros (L & Ix & Iy & S & HZ).
  assert (X1 : In (tX t) (tXZ t)) by (apply frozenset_in, in_app_iff; right; left; reflexivity).
  assert (Y1 : In (tY t) (tYZ t)) by (apply frozenset_in, in_app_iff; right; left; reflexivity).
  assert (X2 : In (tX t) (tXYZ t)) by (apply frozenset_in; rewrite !in_app_iff; right; left; left; reflexivity).
  assert (Y2 : In (tY t) (tXYZ t)) by (apply frozenset_in; rewrite !in_app_iff; right; right; left; reflexivity).
  assert (X3 : ~ In (tX t) (tYZ t)).
  { unfold tYZ. rewrite frozenset_in, in_app_iff. intros [I | [E | []]]; [|lia]. apply HZ in I. tauto. }
  assert (Y3 : ~ In (tY t) (tXZ t)).
  { unfold tXZ. rewrite frozenset_in, in_app_iff. intros [I | [E | []]]; [|lia]. apply HZ in I. tauto. }
  assert (X4 : ~ In (tX t) (tZ t)) by (intros I; apply HZ in I; tauto).
  assert (Y4 : ~ In (tY t) (tZ t)) by (intros I; apply HZ in I; tauto).
  unfold joint_entropy_terms. repeat constructor; cbn [In]; intuition congruence.
Qed.
Lemma terms_strict F t J : is_test F t -> In J (joint_entropy_terms t) -> StronglySorted lt J /\ incl J F.
Proof.
  intros (L & Ix & Iy & S & HZ) H. unfold joint_entropy_terms, tXZ, tYZ, tXYZ in H. cbn [In] in H.
  destruct H as [<- | [<- | [<- | [<- | []]]]]; (split; [first [apply frozenset_strict | assumption]|]); intros v Hv;
    try (rewrite frozenset_in, !in_app_iff in Hv; cbn [In] in Hv);
    repeat destruct Hv as [Hv | Hv]; try contradiction; try (subst; assumption); apply HZ; assumption.
Qed.
Definition has (J : list nat) (t : test) : bool := if in_dec (list_eq_dec Nat.eq_dec) J (joint_entropy_terms t) then true else false.
Lemma has_spec J t : has J t = true <-> In J (joint_entropy_terms t).
Proof. unfold has. destruct (in_dec _ J _); split; try tauto; discriminate. Qed.

Definition some_tests (l : list test) : option (list test) := match l with [] => None | _ => Some l end.
Lemma append_terms t terms : NoDup terms -> forall index J, NoDup (map fst index) ->
  NoDup (map fst (fold_left (append_to t) terms index)) /\
  assoc set_eqb J (fold_left (append_to t) terms index) =
    if in_dec (list_eq_dec Nat.eq_dec) J terms
    then Some ((match assoc set_eqb J index with Some l => l | None => [] end) ++ [t]) else assoc set_eqb J index.
Proof.
  induction 1 as [|k terms Hk N IH]; intros index J Ni; cbn [fold_left]; [split; [assumption|reflexivity]|].
  destruct (IH (append_to t index k) J) as (N1 & E); [apply (keys_put set_eqb set_eqb_spec); assumption|].
  split; [exact N1|]. rewrite E. unfold append_to. rewrite !(assoc_put set_eqb set_eqb_spec).
  destruct (in_dec _ J terms) as [I|NI], (in_dec _ J (k :: terms)) as [I'|NI'].
  - destruct (set_eqb J k) eqn:Ek; [apply set_eqb_spec in Ek; subst; contradiction|reflexivity].
  - exfalso. apply NI'. right. assumption.
  - destruct I' as [->|?]; [|contradiction]. destruct (set_eqb J J) eqn:Ek; [reflexivity|].
    assert (set_eqb J J = true) by (apply set_eqb_spec; reflexivity). congruence.
  - destruct (set_eqb J k) eqn:Ek; [apply set_eqb_spec in Ek; subst; exfalso; apply NI'; left; reflexivity|reflexivity].
Qed.
Lemma count_terms terms : NoDup terms -> forall counter J, 
  assoc set_eqb J (fold_left (count_up set_eqb) terms counter) =
    if in_dec (list_eq_dec Nat.eq_dec) J terms
    then Some (S (match assoc set_eqb J counter with Some n => n | None => 0 end)) else assoc set_eqb J counter.
Proof.
  induction 1 as [|k terms Hk N IH]; intros counter J; cbn [fold_left]; [reflexivity|].
  rewrite IH. unfold count_up. rewrite !(assoc_put set_eqb set_eqb_spec).
  destruct (in_dec _ J terms) as [I|NI], (in_dec _ J (k :: terms)) as [I'|NI'].
  - destruct (set_eqb J k) eqn:Ek; [apply set_eqb_spec in Ek; subst; contradiction|reflexivity].
  - exfalso. apply NI'. right. assumption.
  - destruct I' as [->|?]; [|contradiction]. destruct (set_eqb J J) eqn:Ek; [reflexivity|].
    assert (set_eqb J J = true) by (apply set_eqb_spec; reflexivity). congruence.
  - destruct (set_eqb J k) eqn:Ek; [apply set_eqb_spec in Ek; subst; exfalso; apply NI'; left; reflexivity|reflexivity].
Qed.
Lemma collected ts : (forall t, In t ts -> NoDup (joint_entropy_terms t)) ->
  NoDup (map fst (snd (collect ts))) /\
  forall J, assoc set_eqb J (snd (collect ts)) = some_tests (filter (has J) ts) /\
            assoc set_eqb J (fst (collect ts)) = positive (length (filter (has J) ts)).
Proof.
  unfold collect. induction ts as [|t ts IH] using rev_ind; intros H; [split; [constructor|split; reflexivity]|].
  rewrite fold_left_app. cbn [fold_left]. destruct IH as (N & E); [intros u I; apply H, in_app_iff; left; assumption|].
  destruct (fold_left _ ts ([], [])) as (counter, index). cbn [fst snd] in *.
  assert (Nt : NoDup (joint_entropy_terms t)) by (apply H, in_app_iff; right; left; reflexivity).
  split; [apply (append_terms t _ Nt index [] N)|].
  intros J. destruct (E J) as (E1 & E2). rewrite (count_terms _ Nt). rewrite (proj2 (append_terms t _ Nt index J N)).
  rewrite filter_app. cbn [filter]. unfold has at 2 4. rewrite E1, E2.
  destruct (in_dec _ J (joint_entropy_terms t)) as [I|NI]; [|rewrite app_nil_r; split; reflexivity].
  split; [destruct (filter (has J) ts); reflexivity|]. rewrite app_length, Nat.add_1_r. destruct (length _); reflexivity.
Qed.

(** ** the report *)
Lemma comb2 n : comb n 2 = pairs_of n.
Proof.
  unfold comb, pairs_of. destruct (Nat.leb_spec 2 n) as [L|L].
  - destruct n as [|[|n]]; [lia|lia|]. replace (S (S n) - 2) with n by lia. replace (S (S n) - 1) with (S n) by lia.
    change (fact 2) with 2. assert (E : fact (S (S n)) = S (S n) * S n * fact n) by (cbn [fact]; lia). rewrite E.
    apply Nat.div_mul_cancel_r; [lia|]. apply fact_neq_0.
  - destruct n as [|[|n]]; [reflexivity|reflexivity|lia].
Qed.
Definition ex (M j c : nat) : nat :=
  if c =? j then pairs_of (M - j) else if c + 1 =? j then j * (M - j) else if c + 2 =? j then pairs_of j else 0.
Lemma expected_ex M j c : assoc Nat.eqb c (expected_jht_count_by_cond_size M j) =
  if (c =? j) || (c + 1 =? j) || (c + 2 =? j) then Some (ex M j c) else None.
Proof.
  unfold expected_jht_count_by_cond_size, ex. rewrite !comb2.
  destruct (Nat.leb_spec 1 j), (Nat.leb_spec 2 j); rewrite ?(assoc_put Nat.eqb nat_eqb_spec); cbn [assoc];
    destruct (Nat.eqb_spec c j), (Nat.eqb_spec (c + 1) j), (Nat.eqb_spec (c + 2) j); cbn [orb]; try lia;
    repeat match goal with |- context [Nat.eqb ?a ?b] => destruct (Nat.eqb_spec a b); try lia end; reflexivity.
Qed.

Section Report.
  Variable it : list nat -> list nat.
  Variable it_perm : forall l, Permutation (it l) l.
  Variable F : list nat.
  Variable HF : NoDup F.
  Let T := iter_tests it F.
  Let M := length F.

  Lemma T_filter J : StronglySorted lt J -> NoDup (filter (has J) T) /\ forall t, In t (filter (has J) T) <-> is_test F t /\ needs t J.
  Proof.
    intros SJ. split; [apply NoDup_filter, iter_tests_NoDup; assumption|]. intros t. rewrite filter_In, has_spec. unfold T.
    rewrite (iter_tests_In it it_perm F HF). split; intros (H1 & H2); (split; [assumption|]); 
      (apply terms_needs; [assumption|apply H1|assumption]).
  Qed.
  Lemma T_total J : StronglySorted lt J -> incl J F -> length (filter (has J) T) = pairs_of M.
  Proof.
    intros SJ IJ. destruct (T_filter J SJ) as (N & H).
    apply (exactly_length _ _ _ (need_total F J HF SJ IJ) N). intros t. rewrite H. tauto.
  Qed.
  Lemma T_size J c : StronglySorted lt J -> incl J F ->
    length (filter (fun t => c =? length (tZ t)) (filter (has J) T)) = ex M (length J) c.
  Proof.
    intros SJ IJ. destruct (T_filter J SJ) as (N & H).
    set (l := filter (fun t => c =? length (tZ t)) (filter (has J) T)).
    assert (Nl : NoDup l) by (apply NoDup_filter; assumption).
    assert (Hl : forall t, In t l <-> is_test F t /\ needs t J /\ length (tZ t) = c).
    { intros t. unfold l. rewrite filter_In, H, Nat.eqb_eq. intuition congruence. }
    unfold ex. destruct (Nat.eqb_spec c (length J)) as [E|N1].
    { apply (exactly_length _ _ _ (need_none F J HF SJ IJ) Nl). intros t. rewrite Hl. intuition congruence. }
    destruct (Nat.eqb_spec (c + 1) (length J)) as [E|N2].
    { apply (exactly_length _ _ _ (need_one F J HF SJ IJ) Nl). intros t. rewrite Hl. intuition lia. }
    destruct (Nat.eqb_spec (c + 2) (length J)) as [E|N3].
    { apply (exactly_length _ _ _ (need_both F J HF SJ IJ) Nl). intros t. rewrite Hl. intuition lia. }
    destruct l as [|t l'] eqn:El; [reflexivity|]. exfalso.
    destruct (proj1 (Hl t) (or_introl eq_refl)) as (It & Ne & <-).
    pose proof (needing_size F J SJ t It Ne). destruct (inb J (tX t)), (inb J (tY t)); lia.
  Qed.

  Definition counts_of (J : list nat) : list (nat * nat) :=
    fold_left (fun d t => count_up Nat.eqb d (length (tZ t))) (filter (has J) T) [].
  (** an entry of the summary by size of the term *)
  Definition good (e : nat * list (nat * nat)) : Prop :=
    exists J, StronglySorted lt J /\ incl J F /\ length J = fst e /\ snd e = counts_of J.
  Lemma counts_assoc J : StronglySorted lt J -> incl J F ->
    NoDup (map fst (counts_of J)) /\ forall c, assoc Nat.eqb c (counts_of J) = positive (ex M (length J) c).
  Proof.
    intros SJ IJ. destruct (counted Nat.eqb nat_eqb_spec (fun t => length (tZ t)) (filter (has J) T)) as (N & H).
    split; [exact N|]. intros c. unfold counts_of. rewrite H. f_equal. apply T_size; assumption.
  Qed.
  Lemma good_same a b : good a -> good b -> fst a = fst b -> dict_eqb (snd a) (snd b) = true.
  Proof.
    intros (J & SJ & IJ & LJ & EJ) (L & SL & IL & LL & EL) E. rewrite EJ, EL.
    destruct (counts_assoc J SJ IJ) as (N1 & H1). destruct (counts_assoc L SL IL) as (N2 & H2).
    assert (H : forall c, assoc Nat.eqb c (counts_of J) = assoc Nat.eqb c (counts_of L)) by (intros c; rewrite H1, H2; congruence).
    unfold dict_eqb. apply andb_true_iff. split.
    - apply Nat.eqb_eq. rewrite <- (map_length fst (counts_of J)), <- (map_length fst (counts_of L)).
      apply Permutation_length, NoDup_Permutation; [assumption|assumption|].
      intros c. rewrite <- !(assoc_key Nat.eqb nat_eqb_spec), H. tauto.
    - apply forallb_forall. intros (c, n) I. cbn [fst snd].
      apply (assoc_entry Nat.eqb nat_eqb_spec _ _ _ N1) in I. rewrite H in I. rewrite I. apply Nat.eqb_refl.
  Qed.

  Lemma validate_ok summary : (forall e, In e summary -> good (length (fst e), snd e)) -> forall flat,
    NoDup (map fst flat) -> (forall e, In e flat -> good e) ->
    exists flat', foldM (fun flat (e : list nat * list (nat * nat)) =>
      match assoc Nat.eqb (length (fst e)) flat with
      | Some existing => if dict_eqb existing (snd e) then Ok flat else Err AssertionError
      | None => Ok (assoc_set Nat.eqb (length (fst e)) (snd e) flat)
      end) summary flat = Ok flat' /\ NoDup (map fst flat') /\ (forall e, In e flat' -> good e) /\
      (forall j, In j (map fst flat') <-> In j (map fst flat) \/ exists e, In e summary /\ length (fst e) = j).
  Proof.
    induction summary as [|e summary IH]; intros Hs flat N G; cbn [foldM].
    - exists flat. split; [reflexivity|]. split; [assumption|]. split; [assumption|]. intros j. split; [tauto|]. intros [?|(e & [] & _)]. assumption.
    - assert (Ge : good (length (fst e), snd e)) by (apply Hs; left; reflexivity).
      assert (Hs' : forall x, In x summary -> good (length (fst x), snd x)) by (intros x I; apply Hs; right; assumption).
      destruct (assoc Nat.eqb (length (fst e)) flat) as [d|] eqn:A.
      + assert (Id : In (length (fst e), d) flat) by (apply (assoc_entry Nat.eqb nat_eqb_spec); assumption).
        rewrite (good_same _ _ (G _ Id) Ge eq_refl : dict_eqb d (snd e) = true). cbn [bind].
        destruct (IH Hs' flat N G) as (flat' & E & N' & G' & K'). exists flat'. split; [exact E|]. split; [assumption|]. split; [assumption|].
        intros j. rewrite K'. split.
        * intros [?|(x & I & L)]; [tauto|]. right. exists x. split; [right; assumption|assumption].
        * intros [?|(x & [<- | I] & L)]; [tauto| |right; exists x; tauto]. left. rewrite <- L. apply (in_map fst) in Id. exact Id.
      + destruct (keys_put Nat.eqb nat_eqb_spec (length (fst e)) (snd e) flat N) as (N1 & K1). cbn [bind].
        destruct (IH Hs' (assoc_set Nat.eqb (length (fst e)) (snd e) flat) N1) as (flat' & E & N' & G' & K').
        * intros (j, d) I. apply (assoc_entry Nat.eqb nat_eqb_spec _ _ _ N1) in I. rewrite (assoc_put Nat.eqb nat_eqb_spec) in I.
          destruct (Nat.eqb_spec j (length (fst e))) as [->|Nj].
          -- assert (d = snd e) as -> by congruence. exact Ge.
          -- apply G. apply (assoc_entry Nat.eqb nat_eqb_spec); assumption.
        * exists flat'. split; [exact E|]. split; [assumption|]. split; [assumption|].
          intros j. rewrite K', K1. split.
          -- intros [[->|?]|(x & I & L)]; [right; exists e; split; [left; reflexivity|reflexivity]|tauto|right; exists x; split; [right; assumption|assumption]].
          -- intros [?|(x & [<- | I] & L)]; [tauto|left; left; congruence|right; exists x; tauto].
  Qed.

  Lemma index_facts : NoDup (map fst (snd (collect T))) /\
    forall J, assoc set_eqb J (snd (collect T)) = some_tests (filter (has J) T) /\
              assoc set_eqb J (fst (collect T)) = positive (length (filter (has J) T)).
  Proof.
    apply collected. intros t I. apply (terms_NoDup F). unfold T in I. rewrite (iter_tests_In it it_perm F HF) in I. exact I.
  Qed.
  Lemma term_of_tests J : filter (has J) T <> [] -> StronglySorted lt J /\ incl J F.
  Proof.
    destruct (filter (has J) T) as [|t l] eqn:E; [congruence|]. intros _.
    assert (I : In t (filter (has J) T)) by (rewrite E; left; reflexivity).
    apply filter_In in I. destruct I as (I & H). apply has_spec in H.
    apply (terms_strict F t J); [|assumption]. unfold T in I. rewrite (iter_tests_In it it_perm F HF) in I. exact I.
  Qed.
  Lemma index_entry J l : In (J, l) (snd (collect T)) <-> l = filter (has J) T /\ l <> [].
  Proof.
    destruct index_facts as (N & H). rewrite <- (assoc_entry set_eqb set_eqb_spec _ _ _ N), (proj1 (H J)).
    destruct (filter (has J) T) as [|t r]; cbn [some_tests]; split.
    - discriminate.
    - intros (-> & C). congruence.
    - intros E. split; [congruence|]. congruence.
    - intros (-> & _). reflexivity.
  Qed.

  Lemma flat_ok : exists flat, validate_and_flatten_summary (make_jht_index_summary (snd (collect T))) = Ok flat /\
    NoDup (map fst flat) /\ (forall e, In e flat -> good e) /\
    (forall j, In j (map fst flat) <-> 2 <= M /\ j <= M).
  Proof.
    destruct (validate_ok (make_jht_index_summary (snd (collect T)))) with (flat := @nil (nat * list (nat * nat))) as (flat & E & N & G & K).
    - intros e I. unfold make_jht_index_summary in I. apply in_map_iff in I. destruct I as ((J, l) & <- & I). cbn [fst snd].
      apply index_entry in I. destruct I as (-> & Ne). destruct (term_of_tests J Ne) as (SJ & IJ).
      exists J. split; [assumption|]. split; [assumption|]. split; reflexivity.
    - constructor.
    - intros e [].
    - exists flat. split; [exact E|]. split; [assumption|]. split; [assumption|].
      intros j. rewrite K. split.
      + intros [[]|(e & I & L)]. unfold make_jht_index_summary in I. apply in_map_iff in I. destruct I as ((J, l) & <- & I). cbn [fst] in L.
        apply index_entry in I. destruct I as (-> & Ne). destruct (term_of_tests J Ne) as (SJ & IJ).
        pose proof (T_total J SJ IJ) as Tt. split.
        * destruct (filter (has J) T) as [|t r]; [congruence|]. cbn [length] in Tt. unfold pairs_of in Tt.
          destruct M as [|[|m]]; [discriminate Tt|discriminate Tt|lia].
        * rewrite <- L. apply NoDup_incl_length; [apply NoDup_strict; assumption|assumption].
      + intros (L2 & Lj). right. set (Fs := sort_nat F). set (J := firstn j Fs).
        assert (SF : StronglySorted lt Fs) by (apply sort_strict; assumption).
        assert (SJ : StronglySorted lt J).
        { unfold J. clear -SF. revert j. induction SF as [|a l S IH H]; intros j; destruct j; try constructor; [apply IH|].
          rewrite Forall_forall in *. intros x Hx. apply H. revert Hx. clear. revert j. induction l as [|b l IH]; intros j; destruct j; cbn [firstn In]; try tauto.
          intros [?|?]; [tauto|]. right. eapply IH. eassumption. }
        assert (IJ : incl J F).
        { intros x Hx. apply sort_in. fold Fs. rewrite <- (firstn_skipn j Fs). apply in_app_iff. left. exact Hx. }
        assert (LJ : length J = j).
        { unfold J. rewrite firstn_length. unfold Fs. rewrite <- (Permutation_length (sort_perm F)). unfold M in Lj. lia. }
        exists (J, counts_of J). split; [|exact LJ]. unfold make_jht_index_summary. apply in_map_iff.
        exists (J, filter (has J) T). split; [reflexivity|]. apply index_entry. split; [reflexivity|].
        intros C. pose proof (T_total J SJ IJ) as Tt. rewrite C in Tt. cbn [length] in Tt.
        unfold pairs_of in Tt. symmetry in Tt. apply Nat.div_small_iff in Tt; [|lia]. nia.
  Qed.

  (** what a block of the report should say *)
  Definition block_ok (b : block) : Prop :=
    let '(j, total, expected_total, lines) := b in
    j <= M /\ total = pairs_of M /\ expected_total = total /\
    forall c n x, In (c, n, x) lines <-> x = n /\ n = ex M j c /\ 0 < n.
  Lemma block_good e : 2 <= M -> good e -> exists b, report_block M e = Ok b /\ block_ok b /\ fst (fst (fst b)) = fst e.
  Proof.
    intros L2 (J & SJ & IJ & LJ & EJ). destruct e as (j, d). cbn [fst snd] in *. subst d j.
    destruct (counts_assoc J SJ IJ) as (N & H).
    assert (Lk : forall c n, In (c, n) (counts_of J) <-> n = ex M (length J) c /\ 0 < n).
    { intros c n. rewrite <- (assoc_entry Nat.eqb nat_eqb_spec _ _ _ N), H. destruct (ex M (length J) c) as [|m]; cbn [positive]; split.
      - discriminate.
      - lia.
      - intros E. assert (n = S m) by congruence. lia.
      - intros (-> & _). reflexivity. }
    unfold report_block. cbn [fst snd].
    rewrite (mapM_ok _ (fun cn => (fst cn, snd cn, snd cn))).
    - cbn [bind]. eexists. split; [reflexivity|]. split; [|reflexivity]. unfold block_ok.
      split; [apply NoDup_incl_length; [apply NoDup_strict; assumption|assumption]|].
      assert (Et : sum_values (counts_of J) = pairs_of M) by (unfold counts_of; rewrite sum_counted; apply T_total; assumption).
      split; [exact Et|]. split; [rewrite Et; reflexivity|].
      intros c n x. rewrite in_map_iff. split.
      + intros ((c', n') & E & I). cbn [fst snd] in E. assert (c' = c) as -> by congruence. assert (n' = n) as -> by congruence.
        assert (x = n) as -> by congruence. apply Lk in I. tauto.
      + intros (-> & E & P). exists (c, n). split; [reflexivity|]. apply Lk. tauto.
    - intros (c, n) I. apply Lk in I. destruct I as (E & P). cbn [fst snd]. rewrite expected_ex.
      destruct ((c =? length J) || (c + 1 =? length J) || (c + 2 =? length J)) eqn:Q; [rewrite E; reflexivity|].
      exfalso. unfold ex in E. apply orb_false_iff in Q. destruct Q as (Q & Q3). apply orb_false_iff in Q. destruct Q as (Q1 & Q2).
      rewrite Q1, Q2, Q3 in E. lia.
  Qed.

  Lemma insert_entry_perm {V} (e : nat * V) l : Permutation (e :: l) (insert_entry e l).
  Proof.
    induction l as [|f l IH]; cbn [insert_entry]; [apply Permutation_refl|]. destruct (fst e <=? fst f); [apply Permutation_refl|].
    eapply perm_trans; [apply perm_swap|]. constructor. assumption.
  Qed.
  Lemma sort_entries_perm {V} (l : list (nat * V)) : Permutation l (sort_entries l).
  Proof.
    induction l as [|e l IH]; [constructor|]. eapply perm_trans; [|apply insert_entry_perm]. constructor. exact IH.
  Qed.
  Lemma sort_entries_keys {V} (l : list (nat * V)) : map fst (sort_entries l) = sort_nat (map fst l).
  Proof.
    assert (G : forall (e : nat * V) m, map fst (insert_entry e m) = insert_nat (fst e) (map fst m)).
    { intros e m. induction m as [|f m IH]; cbn [insert_entry insert_nat map]; [reflexivity|].
      destruct (fst e <=? fst f); cbn [map]; congruence. }
    induction l as [|e l IH]; [reflexivity|]. unfold sort_entries in *. cbn [fold_right map]. rewrite G, IH. reflexivity.
  Qed.
  Lemma seq_strict n : forall a, StronglySorted lt (seq a n).
  Proof.
    induction n as [|n IH]; intros a; cbn [seq]; constructor; [apply IH|]. apply Forall_forall. intros x Hx. apply in_seq in Hx. lia.
  Qed.

  Lemma report_ok : exists blocks, flat_index_summary it F = Ok blocks /\ Forall block_ok blocks /\
    map (fun b : block => fst (fst (fst b))) blocks = if 2 <=? M then seq 0 (S M) else [].
  Proof.
    destruct flat_ok as (flat & E & N & G & K). unfold flat_index_summary. fold T. rewrite E. cbn [bind].
    assert (Keys : map fst (sort_entries flat) = if 2 <=? M then seq 0 (S M) else []).
    { rewrite sort_entries_keys. destruct (Nat.leb_spec 2 M).
      - apply strict_unique; [apply sort_strict; assumption|apply seq_strict|]. intros v. rewrite sort_in, K, in_seq. lia.
      - destruct (map fst flat) as [|j r] eqn:Em; [reflexivity|]. exfalso. destruct (proj1 (K j) (or_introl eq_refl)). lia. }
    rewrite <- Keys.
    assert (Gs : forall e, In e (sort_entries flat) -> good e /\ 2 <= M).
    { intros e I. apply (Permutation_in _ (Permutation_sym (sort_entries_perm flat))) in I. split; [apply G; assumption|].
      apply (K (fst e)). apply in_map. assumption. }
    clear -Gs N HF it_perm. induction (sort_entries flat) as [|e l IH].
    - exists []. split; [reflexivity|]. split; [constructor|reflexivity].
    - destruct (Gs e (or_introl eq_refl)) as (Ge & L2). destruct (block_good e L2 Ge) as (b & Eb & Ob & Kb).
      destruct IH as (bs & E & O & Ks); [intros x I; apply Gs; right; assumption|].
      exists (b :: bs). cbn [mapM]. unfold M in Eb |- *. rewrite Eb. cbn [bind]. rewrite E. cbn [bind].
      split; [reflexivity|]. split; [constructor; assumption|]. cbn [map]. congruence.
  Qed.
End Report.
