(** Tables built by PMF.py are distributions; sum_over marginalises; condition_on conditions. *)
From Coq Require Import Reals Lra.
From Verif Require Import Base Key_Model Key_Spec Key_Proofs PMF_Model Prob_Spec Prob_Proofs.
Open Scope R_scope.

Lemma Rsum_Sum l : Rsum l = Sum l.
Proof. induction l; simpl; congruence. Qed.

(** ** Counter *)
Definition occ (k : pyobj) (l : list pyobj) : nat := length (filter (pyobj_eqb k) l).
Definition counts_of (l : list pyobj) (d : list (pyobj * Z)) : Prop :=
  NoDup (map fst d) /\ (forall k n, In (k, n) d -> n = Z.of_nat (occ k l) /\ (0 < n)%Z) /\ (forall k, In k (map fst d) <-> In k l).
Lemma occ_app k l m : occ k (l ++ m) = (occ k l + occ k m)%nat.
Proof. unfold occ. rewrite filter_app, app_length. reflexivity. Qed.
Lemma count_one_ok l d k : counts_of l d -> counts_of (l ++ [k]) (count_one d k).
Proof.
  intros (HN & Hc & Hk). unfold count_one.
  assert (Hone : forall n, (match assoc pyobj_eqb k d with Some m => n = m + 1 | None => n = 1 end)%Z -> counts_of (l ++ [k]) (assoc_set pyobj_eqb k n d)).
  { intros n Hn. split; [apply kset_NoDup; assumption|]. split.
    - intros k' n' Hin. apply (kassoc_NoDup _ _ _ (kset_NoDup k n d HN)) in Hin. rewrite occ_app.
      destruct (pyobj_eqb_spec k' k) as [->|Hne].
      + rewrite kset_same in Hin. injection Hin as <-. unfold occ at 2. simpl. rewrite pyobj_eqb_refl. simpl.
        destruct (assoc pyobj_eqb k d) as [m|] eqn:E.
        * apply kassoc_In in E. destruct (Hc k m E). lia.
        * apply kassoc_None in E. assert (occ k l = 0)%nat; [|lia]. unfold occ. destruct (filter (pyobj_eqb k) l) as [|y t] eqn:Ef; [reflexivity|].
          exfalso. apply E. apply Hk. assert (Hy : In y (filter (pyobj_eqb k) l)) by (rewrite Ef; simpl; auto). apply filter_In in Hy as (Hy & Ey). apply pyobj_eqb_eq in Ey. subst; assumption.
      + rewrite kset_other in Hin by assumption. apply kassoc_In in Hin. destruct (Hc _ _ Hin). unfold occ at 2. simpl.
        destruct (pyobj_eqb_spec k' k); [contradiction|]. simpl. lia.
    - intros x. rewrite kset_keys, in_app_iff, Hk. simpl. intuition congruence. }
  destruct (assoc pyobj_eqb k d) eqn:E; apply Hone; reflexivity.
Qed.
Lemma counter_ok l : counts_of l (counter l).
Proof.
  unfold counter. assert (H : forall l m d, counts_of m d -> counts_of (m ++ l) (fold_left count_one l d)).
  { clear l. induction l as [|k l IH]; intros m d H; simpl; [rewrite app_nil_r; assumption|].
    replace (m ++ k :: l) with ((m ++ [k]) ++ l) by (rewrite <- app_assoc; reflexivity). apply IH. apply count_one_ok; assumption. }
  apply (H l []). split; [constructor|]. split; [intros k n []|]. intros k; simpl; tauto.
Qed.
Lemma insert_key_perm x l : Permutation (x :: l) (insert_key x l).
Proof. induction l as [|y l IH]; simpl; [auto|]. destruct (key_le (fst x) (fst y)); [auto|]. eapply perm_trans; [apply perm_swap|]. constructor; assumption. Qed.
Lemma np_unique_perm l : Permutation (counter l) (np_unique l).
Proof. unfold np_unique. induction (counter l) as [|x d IH]; simpl; [auto|]. eapply perm_trans; [|apply insert_key_perm]. constructor; assumption. Qed.
Lemma counts_perm l d d' : Permutation d d' -> counts_of l d -> counts_of l d'.
Proof.
  intros HP (HN & Hc & Hk). split; [eapply Permutation_NoDup; [apply Permutation_map; eassumption|assumption]|]. split.
  - intros k n Hin. apply Hc. eapply Permutation_in; [apply Permutation_sym; eassumption|assumption].
  - intros k. rewrite <- Hk. split; intros H; (eapply Permutation_in; [apply Permutation_map|]; [|exact H]); [apply Permutation_sym|]; assumption.
Qed.
Lemma count_values_ok v : counts_of (instances v) (count_values v).
Proof. unfold count_values. destruct (is_ndarray v); [eapply counts_perm; [apply np_unique_perm|]|]; apply counter_ok. Qed.

Lemma normalize_ok d total : (total <> 0)%Z -> normalize_counts d total = Ok (map (fun kc => (fst kc, IZR (snd kc) / IZR total)) d).
Proof. intros H. unfold normalize_counts. apply mapM_ok. intros [k c] _. apply Z.eqb_neq in H. rewrite H. reflexivity. Qed.

(** ** PMF(variable) *)
Lemma uniform_probability {A} (l : list A) : l <> [] -> is_probability (uniform l).
Proof.
  intros Hne. assert (H : 0 < INR (length l)) by (apply lt_0_INR; destruct l; [congruence|simpl; lia]). split.
  - intros a _. simpl. apply Rlt_le, Rinv_0_lt_compat; assumption.
  - simpl. change (SumOf (fun _ : A => / INR (length l)) l = 1). rewrite SumOf_const. field. lra.
Qed.
Lemma pr_uniform {A} (l : list A) ev : pr (uniform l) ev = INR (length (filter ev l)) / INR (length l).
Proof. unfold pr. simpl. change (SumOf (fun _ : A => / INR (length l)) (filter ev l) = INR (length (filter ev l)) / INR (length l)). rewrite SumOf_const. reflexivity. Qed.
Lemma filter_map_length {A B} (f : A -> B) ev l : length (filter ev (map f l)) = length (filter (fun a => ev (f a)) l).
Proof. induction l as [|x l IH]; simpl; [reflexivity|]. destruct (ev (f x)); simpl; congruence. Qed.
Lemma occ_keys {A} (X : A -> list Z) l v : occ (as_key v) (map (fun a => as_key (X a)) l) = length (filter (fun a => eqv (X a) v) l).
Proof.
  unfold occ. rewrite filter_map_length. f_equal. apply filter_ext. intros a. destruct (eqv (X a) v) eqn:E.
  - apply eqv_true in E. subst. apply pyobj_eqb_refl.
  - apply eqv_false in E. apply pyobj_eqb_neq. intros H. apply E. apply as_key_inj. congruence.
Qed.
Lemma plain_NoDup {V} (d : list (pyobj * V)) : plain_keys d -> NoDup (map fst d) -> NoDup (map (fun kv => leaves (fst kv)) d).
Proof.
  intros Hp HN. induction d as [|[k v] d IH]; simpl in *; [constructor|]. inversion HN; subst. constructor.
  - intros Hin. apply in_map_iff in Hin as ([k' v'] & E & Hin). simpl in E. apply H1.
    assert (k = k'); [|subst; apply (in_map fst) in Hin; exact Hin]. rewrite (Hp k v), (Hp k' v') by (simpl; auto). rewrite E. reflexivity.
  - apply IH; [intros ? ? Hin; eapply Hp; right; eauto|assumption].
Qed.
Lemma NoDup_leaves_fst {V} (d : list (pyobj * V)) : NoDup (map (fun kv => leaves (fst kv)) d) -> NoDup (map fst d).
Proof.
  intros H. apply (NoDup_map_inv leaves). rewrite map_map. exact H.
Qed.
Lemma plain_get {V} (d : list (pyobj * V)) k v : plain_keys d -> NoDup (map fst d) -> In (k, v) d -> assoc pyobj_eqb (as_key (leaves k)) d = Some v.
Proof. intros Hp HN Hin. rewrite <- (Hp _ _ Hin). apply kassoc_NoDup; assumption. Qed.

Lemma new_pmf_ok {A} v (l : list A) (X : A -> list Z) : instances v = map (fun a => as_key (X a)) l -> var_len v = Ok (length l) -> l <> [] ->
  exists P, new_pmf v = Ok P /\ distribution (uniform l) X (probabilities P) /\ plain_keys (probabilities P) /\ variableIDs P = var_IDs v /\
    (forall k r, In (k, r) (probabilities P) -> r <> 0 /\ exists a, In a l /\ k = as_key (X a)) /\
    variable_IDs P = match v with Joint vs => Some (map vid vs) | _ => None end.
Proof.
  intros Hi Hl Hne. unfold new_pmf. rewrite Hl. cbn [bind].
  assert (Hn : (Z.of_nat (length l) <> 0)%Z) by (destruct l; [congruence|simpl; lia]).
  rewrite (normalize_ok _ _ Hn). cbn [bind]. eexists. split; [reflexivity|]. cbn [probabilities variableIDs variable_IDs].
  destruct (count_values_ok v) as (HN & Hc & Hk). rewrite Hi in *. set (cs := count_values v) in *.
  assert (Hkeys : forall k r, In (k, r) (map (fun kc => (fst kc, IZR (snd kc) / IZR (Z.of_nat (length l)))) cs) ->
    exists a, In a l /\ k = as_key (X a) /\ r = pr1 (uniform l) X (X a)).
  { intros k r Hin. apply in_map_iff in Hin as ([k' c] & E & Hin). injection E as <- <-.
    pose proof (in_map fst _ _ Hin) as Hk'. apply Hk in Hk'. apply in_map_iff in Hk' as (a & Ea & Ha). simpl in Ea. subst k'. exists a. split; [assumption|]. split; [reflexivity|].
    destruct (Hc _ _ Hin) as (Ec & _). simpl. subst c. rewrite occ_keys. unfold pr1. rewrite pr_uniform, <- !INR_IZR_INZ. reflexivity. }
  assert (Hplain : plain_keys (map (fun kc => (fst kc, IZR (snd kc) / IZR (Z.of_nat (length l)))) cs)).
  { intros k r Hin. destruct (Hkeys _ _ Hin) as (a & _ & -> & _). rewrite leaves_as_key. reflexivity. }
  assert (HNk : NoDup (map fst (map (fun kc : pyobj * Z => (fst kc, IZR (snd kc) / IZR (Z.of_nat (length l)))) cs))) by (rewrite map_map; exact HN).
  split; [|split; [assumption|split; [reflexivity|split; [|reflexivity]]]].
  - split; [apply plain_NoDup; assumption|]. split.
    + intros k r Hin. destruct (Hkeys _ _ Hin) as (a & _ & -> & ->). rewrite leaves_as_key. reflexivity.
    + intros x Hx. assert (Hpx : 0 < pr1 (uniform l) X x) by (pose proof (pr1_nonneg (uniform l) (proj1 (uniform_probability l Hne)) X x); lra).
      apply pr_witness in Hpx as (a & Ha & _ & E); [|apply (uniform_probability l Hne)]. apply eqv_true in E. simpl in Ha.
      assert (Hin : In (as_key (X a)) (map fst cs)) by (apply Hk; apply (in_map (fun a => as_key (X a))); assumption).
      apply in_map_iff in Hin as ([k c] & Ek & Hin). simpl in Ek. subst k. exists (as_key (X a)), (IZR c / IZR (Z.of_nat (length l))). split.
      * apply in_map_iff. exists (as_key (X a), c). split; [reflexivity|assumption].
      * rewrite leaves_as_key. assumption.
  - intros k r Hin. destruct (Hkeys _ _ Hin) as (a & Ha & -> & ->). split; [|eauto].
    assert (0 < pr1 (uniform l) X (X a)); [|lra]. apply (pr1_at (uniform l)); [apply (uniform_probability l Hne)|assumption|].
    simpl. apply Rinv_0_lt_compat. apply lt_0_INR. destruct l; [contradiction|simpl; lia].
Qed.

(** looking up a probability, keys given in any nesting *)
Lemma pmf_p_ok {A} (S : space A) X P args : (forall a, In a (outcomes S) -> 0 <= weight S a) ->
  distribution S X (probabilities P) -> plain_keys (probabilities P) -> pmf_p P args = pr1 S X (leaves_list args).
Proof.
  intros Hpos (HN & Hr & Hc) Hp. unfold pmf_p. rewrite process_key. destruct (assoc pyobj_eqb (as_key (leaves_list args)) (probabilities P)) as [r|] eqn:E.
  - apply kassoc_In in E. rewrite (Hr _ _ E), leaves_as_key. reflexivity.
  - apply kassoc_None in E. destruct (Req_dec (pr1 S X (leaves_list args)) 0) as [E0|E0]; [congruence|]. exfalso. apply E.
    destruct (Hc _ E0) as (k & r & Hin & Hk). rewrite <- Hk, <- (Hp _ _ Hin). apply (in_map fst) in Hin. exact Hin.
Qed.

(** ** sums over tables *)
Section Lotus.
  Context {A : Type} (S : space A).
  Hypothesis Hpos : forall a, In a (outcomes S) -> 0 <= weight S a.
  Lemma lotus X d (g : list Z -> R) : distribution S X d ->
    SumOf (fun kr => snd kr * g (leaves (fst kr))) d = SumOf (fun a => weight S a * g (X a)) (outcomes S).
  Proof.
    intros (HN & Hr & Hc).
    rewrite (SumOf_ext _ (fun kr => pr S (fun a => true && eqv (X a) (leaves (fst kr)))%bool * g (leaves (fst kr)))).
    2:{ intros [k r] Hin. simpl. rewrite (Hr _ _ Hin). reflexivity. }
    rewrite (pr_partition S X (fun _ => true) (fun kr : pyobj * R => leaves (fst kr)) (fun kr => g (leaves (fst kr))) d HN).
    apply SumOf_ext. intros a Ha. pose proof (Hpos a Ha) as Hpa. destruct (Req_dec (weight S a) 0) as [E|E]; [rewrite E; ring|]. f_equal.
    destruct (Hc (X a)) as (k & r & Hin & Hk); [assert (0 < pr1 S X (X a)) by (apply pr1_at; [assumption|assumption|lra]); lra|].
    rewrite (SumOf_pick (fun kr : pyobj * R => leaves (fst kr)) _ d (X a) (k, r) HN Hin Hk). simpl. rewrite Hk. reflexivity.
  Qed.
  Lemma cond_lotus X Z z d (g : list BinNums.Z -> R) : pr1 S Z z <> 0 -> conditional_distribution S X Z z d ->
    SumOf (fun kr => snd kr * g (leaves (fst kr))) d = SumOf (fun a => weight S a * (if eqv (Z a) z then g (X a) else 0)) (outcomes S) / pr1 S Z z.
  Proof.
    intros Hz (HN & Hr & Hc).
    rewrite (SumOf_ext _ (fun kr => pr S (fun a => eqv (Z a) z && eqv (X a) (leaves (fst kr)))%bool * g (leaves (fst kr)) * / pr1 S Z z)).
    2:{ intros [k r] Hin. simpl. rewrite (Hr _ _ Hin). rewrite pr2_swap. unfold pr2, Rdiv. ring. }
    rewrite SumOf_scal_r. unfold Rdiv. f_equal.
    rewrite (pr_partition S X (fun a => eqv (Z a) z) (fun kr : pyobj * R => leaves (fst kr)) (fun kr => g (leaves (fst kr))) d HN).
    apply SumOf_ext. intros a Ha. pose proof (Hpos a Ha) as Hpa. destruct (Req_dec (weight S a) 0) as [E|E]; [rewrite E; ring|]. f_equal.
    destruct (eqv (Z a) z) eqn:Ez; [|reflexivity]. apply eqv_true in Ez. subst z.
    destruct (Hc (X a)) as (k & r & Hin & Hk); [assert (0 < pr2 S X (X a) Z (Z a)) by (apply pr2_at; [assumption|assumption|lra]); lra|].
    rewrite (SumOf_pick (fun kr : pyobj * R => leaves (fst kr)) _ d (X a) (k, r) HN Hin Hk). simpl. rewrite Hk. reflexivity.
  Qed.
  Lemma distribution_total X d : is_probability S -> distribution S X d -> Sum (map snd d) = 1.
  Proof.
    intros (_ & Ht) Hd. pose proof (lotus X d (fun _ => 1) Hd) as H. change (SumOf (fun kr : pyobj * R => snd kr) d = 1).
    rewrite (SumOf_ext _ (fun kr => snd kr * 1)) by (intros; ring). rewrite H.
    rewrite (SumOf_ext _ (weight S)) by (intros; ring). exact Ht.
  Qed.
  Lemma conditional_total X Z z d : pr1 S Z z <> 0 -> conditional_distribution S X Z z d -> Sum (map snd d) = 1.
  Proof.
    intros Hz Hd. pose proof (cond_lotus X Z z d (fun _ => 1) Hz Hd) as H. change (SumOf (fun kr : pyobj * R => snd kr) d = 1).
    rewrite (SumOf_ext _ (fun kr => snd kr * 1)) by (intros; ring). rewrite H.
    rewrite (SumOf_ext _ (fun a => if (fun a => eqv (Z a) z) a then weight S a else 0)) by (intros; destruct (eqv (Z x) z); ring).
    rewrite <- pr_sum. fold (pr1 S Z z). field. assumption.
  Qed.
End Lotus.
