(** Tables built from data columns: PMF(variable), CPMF(variable, given), mutual information. *)
From Coq Require Import Reals Lra.
From Verif Require Import Base Key_Model Key_Spec Key_Proofs PMF_Model PMF_Spec Prob_Spec Info_Spec Prob_Proofs PMF_Proofs PMF_Cond_Proofs Info_Proofs.
Open Scope R_scope.

Notation urows n := (uniform (seq 0 n)).

(** ** instances *)
Lemma seq_map_nth {A} (l : list A) d : map (fun i => nth i l d) (seq 0 (length l)) = l.
Proof.
  induction l as [|x l IH]; [reflexivity|]. cbn [length seq map nth]. f_equal. rewrite <- seq_shift, map_map. exact IH.
Qed.
Lemma zip2_map {A B} (f : A -> B) (g : A -> list B) l : zip2 (map f l) (map g l) = map (fun a => f a :: g a) l.
Proof. induction l as [|x l IH]; simpl; [reflexivity|]. rewrite IH. reflexivity. Qed.
Lemma zip_all_ok n vs : vs <> [] -> Forall (fun x => length (insts x) = n) vs ->
  zip_all (map insts vs) = map (fun i => map (fun x => nth i (insts x) 0%Z) vs) (seq 0 n).
Proof.
  induction vs as [|v [|w vs] IH]; intros Hne HF; [congruence| |].
  - inversion HF; subst. cbn [map zip_all]. rewrite <- (map_map (fun i => nth i (insts v) 0%Z) (fun x => [x])), seq_map_nth. reflexivity.
  - inversion HF; subst. change (zip_all (map insts (v :: w :: vs))) with (zip2 (insts v) (zip_all (map insts (w :: vs)))).
    rewrite IH by (congruence || assumption). rewrite <- (seq_map_nth (insts v) 0%Z) at 1. rewrite zip2_map. reflexivity.
Qed.
Lemma map_seq_const {A} (c : A) n s : map (fun _ => c) (seq s n) = repeat c n.
Proof. revert s. induction n as [|n IH]; intros s; simpl; [reflexivity|]. rewrite IH. reflexivity. Qed.
Lemma instances_ok v n : has_rows v n -> instances v = map (fun i => as_key (value_at v i)) (seq 0 n).
Proof.
  destruct v as [x|m|vs]; simpl.
  - intros <-. rewrite <- (map_map (fun i => nth i (insts x) 0%Z) PInt), seq_map_nth. reflexivity.
  - intros ->. rewrite map_seq_const. reflexivity.
  - intros (Hne & HF). destruct vs as [|x [|y vs]]; [congruence| |].
    + inversion HF; subst. rewrite <- (map_map (fun i => nth i (insts x) 0%Z) PInt), seq_map_nth. reflexivity.
    + rewrite (zip_all_ok n) by (congruence || assumption). rewrite map_map. reflexivity.
Qed.
Lemma var_len_ok v n : has_rows v n -> var_len v = Ok n.
Proof.
  destruct v as [x|m|vs]; simpl; [congruence|congruence|]. intros (Hne & HF). destruct vs as [|x vs]; [congruence|]. inversion HF; subst. reflexivity.
Qed.
Lemma value_at_length v i : length (value_at v i) = arity v.
Proof. destruct v; simpl; [reflexivity|reflexivity|apply map_length]. Qed.

(** ** PMF(variable) *)
Lemma data_pmf v n : has_rows v n -> (0 < n)%nat ->
  exists P, new_pmf v = Ok P /\ distribution (urows n) (value_at v) (probabilities P) /\ plain_keys (probabilities P) /\ variableIDs P = var_IDs v /\
    (forall k r, In (k, r) (probabilities P) -> r <> 0 /\ exists i, (i < n)%nat /\ k = as_key (value_at v i)) /\
    variable_IDs P = match v with Joint vs => Some (map vid vs) | _ => None end.
Proof.
  intros Hr Hn. destruct (new_pmf_ok v (seq 0 n) (value_at v)) as (P & H1 & H2 & H3 & H4 & H5 & H6).
  - apply instances_ok; assumption.
  - rewrite seq_length. apply var_len_ok; assumption.
  - destruct n; [lia|discriminate].
  - exists P. split; [assumption|]. split; [assumption|]. split; [assumption|]. split; [assumption|]. split; [|assumption].
    intros k r Hin. destruct (H5 _ _ Hin) as (Hr0 & i & Hi & Hk). split; [assumption|]. exists i. split; [apply in_seq in Hi; lia|assumption].
Qed.
Lemma data_pr v n x : pr1 (urows n) (value_at v) x = INR (matching v n x) / INR n.
Proof. unfold pr1. rewrite pr_uniform, seq_length. reflexivity. Qed.
Lemma data_empty v : has_rows v 0 -> exists P, new_pmf v = Ok P /\ probabilities P = [].
Proof.
  intros H. unfold new_pmf. rewrite (var_len_ok v 0 H). cbn [bind]. unfold count_values, np_unique. rewrite (instances_ok v 0 H). simpl. destruct (is_ndarray v); simpl; eauto.
Qed.

(** ** CPMF(variable, given) *)
Lemma zsum_counts l d : counts_of l d -> zsum (map snd d) = Z.of_nat (length l).
Proof.
  intros (HN & Hc & Hk). 
  assert (H : forall d l, NoDup (map fst d) -> (forall k n, In (k, n) d -> n = Z.of_nat (occ k l)) -> (forall k, In k l -> In k (map fst d)) -> zsum (map snd d) = Z.of_nat (length l)).
  { clear. induction d as [|[k n] d IH]; intros l HN Hc Hk.
    - destruct l as [|k l]; [reflexivity|]. exfalso. apply (Hk k). simpl; auto.
    - cbn [map zsum snd]. inversion HN as [|? ? Hni HN']; subst. rewrite (IH (filter (fun k' => negb (pyobj_eqb k k')) l)).
      + rewrite (Hc k n) by (simpl; auto). unfold occ. rewrite <- Nat2Z.inj_add. f_equal.
        clear. induction l as [|x l IH]; simpl; [reflexivity|]. destruct (pyobj_eqb k x); simpl; lia.
      + assumption.
      + intros k' n' Hin. rewrite (Hc k' n') by (simpl; auto). f_equal. unfold occ. f_equal. 
        assert (Hne : k' <> k) by (intros ->; apply Hni; apply (in_map fst) in Hin; exact Hin). clear - Hne.
        induction l as [|x l IH]; simpl; [reflexivity|]. destruct (pyobj_eqb_spec k x); simpl.
        * subst. destruct (pyobj_eqb_spec k' x); [contradiction|assumption].
        * destruct (pyobj_eqb k' x); simpl; congruence.
      + intros k' Hin. apply filter_In in Hin as (Hin & E). destruct (Hk k' Hin) as [E'|H]; [simpl in E'; subst; rewrite pyobj_eqb_refl in E; discriminate|assumption]. }
  apply H; [assumption|intros k n Hin; apply (Hc k n Hin)|intros k Hin; apply Hk; assumption].
Qed.
(** the nested dictionary holds, for each z that occurs, the counter of the paired values *)
Lemma count_cond_ok l : forall z,
  assoc pyobj_eqb z (fold_left count_cond l []) =
  match filter (fun vc => pyobj_eqb z (snd vc)) l with [] => None | m => Some (counter (map fst m)) end.
Proof.
  induction l as [|[v c] l IH] using rev_ind; intros z; [reflexivity|].
  rewrite fold_left_app. cbn [fold_left]. unfold count_cond at 1. cbn [fst snd]. rewrite filter_app. cbn [filter snd].
  destruct (pyobj_eqb_spec z c) as [->|Hne].
  - rewrite kset_same, IH. generalize (filter (fun vc : pyobj * pyobj => pyobj_eqb c (snd vc)) l). intros [|y m]; [reflexivity|].
    replace (match (y :: m) ++ [(v, c)] with [] => None | p :: l0 => Some (counter (map fst (p :: l0))) end) with (Some (counter (map fst ((y :: m) ++ [(v, c)])))) by reflexivity.
    f_equal. rewrite map_app. unfold counter at 2. rewrite fold_left_app. reflexivity.
  - rewrite kset_other by congruence. rewrite app_nil_r. apply IH.
Qed.
Lemma count_cond_NoDup l : NoDup (map fst (fold_left count_cond l [])).
Proof.
  induction l as [|vc l IH] using rev_ind; [constructor|]. rewrite fold_left_app. cbn [fold_left]. apply kset_NoDup. assumption.
Qed.
Lemma combine_map {A B C} (f : A -> B) (g : A -> C) l : combine (map f l) (map g l) = map (fun a => (f a, g a)) l.
Proof. induction l; simpl; congruence. Qed.
Lemma filter_map_comm {A B} (f : A -> B) p l : filter p (map f l) = map f (filter (fun a => p (f a)) l).
Proof. induction l as [|x l IH]; simpl; [reflexivity|]. destruct (p (f x)); simpl; congruence. Qed.
Lemma filter_eqkey {A} (X : A -> list Z) l v : filter (fun a => pyobj_eqb (as_key v) (as_key (X a))) l = filter (fun a => eqv (X a) v) l.
Proof.
  apply filter_ext. intros a. destruct (eqv (X a) v) eqn:E.
  - apply eqv_true in E. subst. apply pyobj_eqb_refl.
  - apply eqv_false in E. apply pyobj_eqb_neq. intros H. apply E. apply as_key_inj. congruence.
Qed.
Lemma assoc_map {V W} (f : pyobj * V -> W) (d : list (pyobj * V)) k :
  assoc pyobj_eqb k (map (fun kv => (fst kv, f kv)) d) = option_map (fun v => f (k, v)) (assoc pyobj_eqb k d).
Proof.
  induction d as [|[k' v] d IH]; simpl; [reflexivity|]. destruct (pyobj_eqb_spec k k'); [subst; reflexivity|assumption].
Qed.

Lemma new_cpmf_rv {A} v g (l : list A) (X Z : A -> list Z) :
  instances v = map (fun a => as_key (X a)) l -> instances g = map (fun a => as_key (Z a)) l ->
  exists C, new_cpmf v g = Ok C /\ cond_table (uniform l) X Z C /\ cond_plain C /\
    (forall z k r, In (k, r) (probabilities (given C [as_key z])) -> exists a, In a l /\ Z a = z /\ k = as_key (X a)).
Proof.
  intros Hv Hg. unfold new_cpmf. rewrite Hv, Hg, combine_map. set (C0 := fold_left count_cond _ _).
  assert (Hlook : forall z, assoc pyobj_eqb (as_key z) C0 = match filter (fun a => eqv (Z a) z) l with [] => None | m => Some (counter (map (fun a => as_key (X a)) m)) end).
  { intros z. unfold C0. rewrite count_cond_ok, filter_map_comm. cbn [snd]. rewrite filter_eqkey. destruct (filter (fun a => eqv (Z a) z) l); [reflexivity|]. cbn [map fst]. rewrite map_map. reflexivity. }
  assert (HC : forall k d, In (k, d) C0 -> exists z m, k = as_key z /\ m <> [] /\ m = filter (fun a => eqv (Z a) z) l /\ d = counter (map (fun a => as_key (X a)) m)).
  { intros k d Hin. pose proof (kassoc_NoDup _ _ _ (count_cond_NoDup _) Hin) as Hk. 
    assert (Hz : exists z, k = as_key z).
    { unfold C0 in Hk. rewrite count_cond_ok, filter_map_comm in Hk. cbn [snd] in Hk. destruct (filter (fun a => pyobj_eqb k (as_key (Z a))) l) as [|a m] eqn:E; [discriminate|].
      assert (Ha : In a (filter (fun a => pyobj_eqb k (as_key (Z a))) l)) by (rewrite E; simpl; auto). apply filter_In in Ha as (_ & Ha). apply pyobj_eqb_eq in Ha. eauto. }
    destruct Hz as (z & ->). fold C0 in Hk. rewrite Hlook in Hk. exists z. destruct (filter _ l) as [|a m] eqn:E; [discriminate|]. exists (a :: m). repeat split; [discriminate|congruence]. }
  pose (norm := fun zc : pyobj * list (pyobj * BinNums.Z) => with_probabilities empty_pmf (map (fun kc => (fst kc, IZR (snd kc) / IZR (zsum (map snd (snd zc))))) (snd zc))).
  exists (map (fun zc => (fst zc, norm zc)) C0). split.
  { apply mapM_ok. intros [k d] Hin. destruct (HC _ _ Hin) as (z & m & -> & Hne & Em & Ed). cbn [fst snd]. rewrite normalize_ok; [reflexivity|].
    rewrite (zsum_counts (map (fun a => as_key (X a)) m) d) by (subst d; apply counter_ok). rewrite map_length. destruct m; [congruence|simpl; lia]. }
  assert (Ht : forall z, let m := filter (fun a => eqv (Z a) z) l in
    probabilities (given (map (fun zc => (fst zc, norm zc)) C0) [as_key z]) = match m with [] => [] | _ => map (fun kc => (fst kc, IZR (snd kc) / INR (length m))) (counter (map (fun a => as_key (X a)) m)) end).
  { intros z m. rewrite given_table. unfold table_at. change (leaves_list [as_key z]) with (leaves (as_key z) ++ []). rewrite leaves_as_key, app_nil_r.
    rewrite (assoc_map norm), Hlook. fold m. destruct m as [|a m0] eqn:E; [reflexivity|]. cbn [option_map norm snd probabilities with_probabilities].
    apply map_ext. intros [k c]. cbn [fst snd]. rewrite (zsum_counts _ _ (counter_ok _)), map_length, <- INR_IZR_INZ. reflexivity. }
  assert (Hocc : forall z x, pr2 (uniform l) X x Z z = INR (length (filter (fun a => eqv (X a) x) (filter (fun a => eqv (Z a) z) l))) / INR (length l)).
  { intros z x. unfold pr2. rewrite pr_uniform. f_equal. f_equal. f_equal. clear. induction l as [|a l IH]; simpl; [reflexivity|]. destruct (eqv (Z a) z); simpl; rewrite ?andb_true_r, ?andb_false_r; [|assumption]. destruct (eqv (X a) x); simpl; congruence. }
  assert (Hl : forall z, pr1 (uniform l) Z z = INR (length (filter (fun a => eqv (Z a) z) l)) / INR (length l)) by (intros; apply pr_uniform).
  assert (Hkeys : forall z k r, In (k, r) (probabilities (given (map (fun zc => (fst zc, norm zc)) C0) [as_key z])) -> exists a, In a l /\ Z a = z /\ k = as_key (X a)).
  { intros z k r. rewrite Ht. cbv zeta. destruct (filter (fun a => eqv (Z a) z) l) as [|b m0] eqn:E; [intros []|]. rewrite <- E. clear m0 E. intros Hin.
    apply in_map_iff in Hin as ([k' c] & E & Hin). cbn [fst snd] in E. injection E as <- _. apply (in_map fst) in Hin. cbn [fst] in Hin. apply (proj1 (proj2 (proj2 (counter_ok (map (fun a => as_key (X a)) (filter (fun a => eqv (Z a) z) l)))) _)) in Hin.
    apply in_map_iff in Hin as (a & <- & Ha). apply filter_In in Ha as (Ha & E). apply eqv_true in E. eauto. }
  assert (Hplain : forall z, plain_keys (probabilities (given (map (fun zc => (fst zc, norm zc)) C0) [as_key z]))).
  { intros z k r Hin. destruct (Hkeys z k r Hin) as (a & _ & _ & ->). rewrite leaves_as_key. reflexivity. }
  split; [|split; [exact Hplain|exact Hkeys]].
  intros z. cbv zeta. split.
  - intros Hz. assert (Hne : filter (fun a => eqv (Z a) z) l <> []) by (intros E; apply Hz; rewrite Hl, E; simpl; unfold Rdiv; ring).
    assert (Hnl : INR (length l) <> 0) by (apply not_0_INR; intros E; apply Hne; destruct l; [reflexivity|discriminate]).
    set (m := filter (fun a => eqv (Z a) z) l) in *. assert (Hm : INR (length m) <> 0) by (apply not_0_INR; destruct m; [congruence|discriminate]).
    assert (Ht' : probabilities (given (map (fun zc => (fst zc, norm zc)) C0) [as_key z]) = map (fun kc => (fst kc, IZR (snd kc) / INR (length m))) (counter (map (fun a => as_key (X a)) m))).
    { rewrite Ht. fold m. destruct m; [congruence|reflexivity]. }
    destruct (counter_ok (map (fun a => as_key (X a)) m)) as (HN & Hc & Hk).
    split; [|split].
    + apply plain_NoDup; [apply Hplain|]. rewrite Ht', map_map. exact HN.
    + intros k r Hin. rewrite Ht' in Hin. apply in_map_iff in Hin as ([k' c] & E & Hin). cbn [fst snd] in E. injection E as <- <-.
      destruct (Hc _ _ Hin) as (Ec & _). apply (in_map fst) in Hin. cbn [fst] in Hin. apply (proj1 (Hk _)) in Hin. apply in_map_iff in Hin as (a & <- & Ha).
      rewrite leaves_as_key, Hocc, Hl, Ec, occ_keys. fold m. rewrite <- INR_IZR_INZ. field. split; assumption.
    + intros v0 Hv0. rewrite Hocc in Hv0. fold m in Hv0. destruct (filter (fun a => eqv (X a) v0) m) as [|a m0] eqn:E; [exfalso; apply Hv0; simpl; unfold Rdiv; ring|].
      assert (Ha : In a (filter (fun a => eqv (X a) v0) m)) by (rewrite E; simpl; auto). apply filter_In in Ha as (Ha & E'). apply eqv_true in E'.
      assert (Hin : In (as_key (X a)) (map fst (counter (map (fun a => as_key (X a)) m)))) by (apply Hk; apply in_map_iff; eauto).
      apply in_map_iff in Hin as ([k c] & Ek & Hin). cbn [fst] in Ek. exists k, (IZR c / INR (length m)). rewrite Ht'. split; [apply in_map_iff; exists (k, c); auto|].
      rewrite Ek, leaves_as_key. assumption.
  - intros Hz. rewrite Ht. cbv zeta. destruct (filter (fun a => eqv (Z a) z) l) as [|a m] eqn:E; [reflexivity|]. exfalso. rewrite Hl, E in Hz.
    assert (0 < INR (length (a :: m))) by (apply lt_0_INR; simpl; lia).
    assert (0 < INR (length l)) by (apply lt_0_INR; destruct l; [discriminate|simpl; lia]).
    assert (0 < INR (length (a :: m)) / INR (length l)) by (apply Rdiv_lt_0_compat; assumption). lra.
Qed.

(** ** Omega tables: conditioning on a constant *)
Section OmegaTables.
  Context {A : Type} (S : space A).
  Hypothesis HS : is_probability S.
  Let W := fun _ : A => [1%Z].
  Lemma pr1_W z : pr1 S W z = if eqv [1%Z] z then 1 else 0.
  Proof. unfold pr1. rewrite pr_sum. unfold W. destruct (eqv [1%Z] z); [apply (proj2 HS)|]. apply SumOf_zero. reflexivity. Qed.
  Lemma pr2_W X x z : pr2 S X x W z = if eqv [1%Z] z then pr1 S X x else 0.
  Proof. unfold pr2, pr1. rewrite !pr_sum. unfold W. destruct (eqv [1%Z] z); [apply SumOf_ext; intros; rewrite andb_true_r; reflexivity|]. apply SumOf_zero. intros; rewrite andb_false_r; reflexivity. Qed.
  Lemma omega_given P z : given (omega_cpmf P) [as_key z] = if eqv [1%Z] z then P else empty_pmf.
  Proof.
    rewrite given_table. unfold table_at, omega_cpmf. change (leaves_list [as_key z]) with (leaves (as_key z) ++ []). rewrite leaves_as_key, app_nil_r. cbn [assoc].
    destruct (eqv [1%Z] z) eqn:E.
    - apply eqv_true in E. subst z. reflexivity.
    - destruct (pyobj_eqb_spec (as_key z) (PInt 1)) as [E'|]; [|reflexivity]. exfalso. apply eqv_false in E. apply E. apply as_key_inj. rewrite E'. reflexivity.
  Qed.
  Lemma omega_table X P : distribution S X (probabilities P) -> cond_table S X W (omega_cpmf P).
  Proof.
    intros (HN & Hr & Hc) z. cbv zeta. rewrite omega_given, pr1_W. destruct (eqv [1%Z] z) eqn:E; [|split; [lra|reflexivity]]. split; [|lra]. intros _.
    split; [assumption|]. rewrite pr1_W, E. split.
    - intros k r Hin. rewrite pr2_W, E, (Hr _ _ Hin). field.
    - intros v. rewrite pr2_W, E. apply Hc.
  Qed.
  Lemma omega_plain P : plain_keys (probabilities P) -> cond_plain (omega_cpmf P).
  Proof. intros H z. rewrite omega_given. destruct (eqv [1%Z] z); [assumption|]. intros k r []. Qed.
  Lemma omega_dist : distribution S W (probabilities omega_pmf).
  Proof.
    split; [repeat constructor; simpl; tauto|]. split.
    - intros k r [E|[]]. injection E as <- <-. rewrite pr1_W. reflexivity.
    - intros v. rewrite pr1_W. destruct (eqv [1%Z] v) eqn:E; [|lra]. intros _. exists (PInt 1), 1. split; [left; reflexivity|]. apply eqv_true in E. assumption.
  Qed.
  Lemma cmi_W X Y : cmi S X Y W = mi S X Y.
  Proof.
    apply SumOf_ext. intros a Ha. rewrite pr1_W, !pr2_W. unfold W at 2 3 4. rewrite eqv_refl, Rmult_1_r. f_equal. f_equal. f_equal.
    apply pr_ext. intros b _. unfold W. rewrite eqv_refl, andb_true_r. reflexivity.
  Qed.
  Lemma cond_indep_W X Y : cond_independent S X Y W <-> independent S X Y.
  Proof.
    assert (H3 : forall x y z, pr3 S X x Y y W z = if eqv [1%Z] z then pr2 S X x Y y else 0).
    { intros x y z. unfold pr3, pr2. rewrite !pr_sum. unfold W. destruct (eqv [1%Z] z); [apply SumOf_ext; intros; rewrite andb_true_r; reflexivity|]. apply SumOf_zero. intros; rewrite andb_false_r; reflexivity. }
    split.
    - intros H x y. specialize (H x y [1%Z]). rewrite H3, pr1_W, !pr2_W, eqv_refl in H. lra.
    - intros H x y z. rewrite H3, pr1_W, !pr2_W. destruct (eqv [1%Z] z); [rewrite (H x y); ring|ring].
  Qed.
End OmegaTables.

Lemma foldM_ext {A B} (f g : B -> A -> res B) l : (forall b x, In x l -> f b x = g b x) -> forall b, foldM f l b = foldM g l b.
Proof. induction l as [|x l IH]; intros H b; simpl; [reflexivity|]. rewrite H by (simpl; auto). destruct (g b x); simpl; [apply IH; intros; apply H; simpl; auto|reflexivity]. Qed.

(** mutual_information is conditional_mutual_information given Omega, without `abs` *)
Lemma mi_omega PXY PX PY b : mutual_information PXY PX PY b = cmi_sum (omega_cpmf PXY) (omega_cpmf PX) (omega_cpmf PY) omega_pmf b.
Proof.
  unfold cmi_sum, omega_pmf. cbn [probabilities with_probabilities foldM fst snd].
  change (given (omega_cpmf PXY) [PInt 1]) with PXY. change (given (omega_cpmf PX) [PInt 1]) with PX. change (given (omega_cpmf PY) [PInt 1]) with PY.
  unfold mutual_information. destruct (check_base b); [|reflexivity]. cbn [bind]. match goal with |- ?l = bind ?r _ => assert (E : l = r); [|rewrite <- E; destruct l; reflexivity] end.
  apply foldM_ext. intros acc [x px] _. apply foldM_ext. intros acc' [y py] _. cbn [fst snd].
  destruct (_ || _)%bool; [reflexivity|]. destruct (log_fun _ _); [|reflexivity]. cbn [bind]. rewrite Rmult_1_l. reflexivity.
Qed.
Theorem mi_code_ok {A} (S : space A) X Y lx PXY PX PY b : is_probability S -> (forall a, In a (outcomes S) -> length (X a) = lx) -> base_valid b ->
  distribution S (fun a => X a ++ Y a) (probabilities PXY) -> plain_keys (probabilities PXY) ->
  distribution S X (probabilities PX) -> distribution S Y (probabilities PY) ->
  mutual_information PXY PX PY b = Ok (mi S X Y * base_factor b).
Proof.
  intros HS Hl Hb HXY Hp HX HY. rewrite mi_omega, <- (cmi_W S HS).
  apply (cmi_sum_ok S (proj1 HS) X Y _ lx Hl); try assumption.
  - apply omega_table; assumption.
  - apply omega_plain; assumption.
  - apply omega_table; assumption.
  - apply omega_table; assumption.
  - apply omega_dist; assumption.
Qed.

(** ** entropy *)
Lemma entropy_code {A} (S : space A) X P : (forall a, In a (outcomes S) -> 0 <= weight S a) -> distribution S X (probabilities P) ->
  (forall k r, In (k, r) (probabilities P) -> r <> 0) ->
  expected_value (fun _ p => math_log p) P = Ok (- entropy S X).
Proof.
  intros Hpos Hd Hnz. unfold expected_value.
  rewrite (mapM_ok _ (fun kr => snd kr * ln (pr1 S X (leaves (fst kr))))).
  - cbn [bind]. f_equal. rewrite Rsum_Sum. change (SumOf (fun kr : pyobj * R => snd kr * ln (pr1 S X (leaves (fst kr)))) (probabilities P) = - entropy S X).
    rewrite (lotus S Hpos X (probabilities P) (fun v => ln (pr1 S X v)) Hd). unfold entropy. rewrite Ropp_involutive. reflexivity.
  - intros [k r] Hin. cbn [fst snd]. pose proof (proj1 (proj2 Hd) _ _ Hin) as E. rewrite <- E. unfold math_log.
    destruct (Rlt_dec 0 r) as [H|H]; [reflexivity|]. exfalso. apply H. specialize (Hnz _ _ Hin). pose proof (pr1_nonneg S Hpos X (leaves k)). lra.
Qed.

(** ** JointVariables *)
Lemma lengths_agree_ok n vs : Forall (fun x => length (insts x) = n) vs -> lengths_agree vs = true.
Proof.
  induction vs as [|x [|y vs] IH]; intros H; [reflexivity|reflexivity|]. inversion H; subst. cbn [lengths_agree].
  apply andb_true_iff. split; [|apply IH; assumption]. apply Nat.eqb_eq. inversion H3; congruence.
Qed.
Lemma lengths_agree_inv vs x : lengths_agree (x :: vs) = true -> Forall (fun y => length (insts y) = length (insts x)) (x :: vs).
Proof.
  revert x; induction vs as [|y vs IH]; intros x H; [repeat constructor|]. cbn [lengths_agree] in H. apply andb_true_iff in H as (E & H). apply Nat.eqb_eq in E.
  constructor; [reflexivity|]. rewrite E. apply IH. assumption.
Qed.
Definition parts (v : var) : list variable := match v with Simple x => [x] | OmegaVar _ => [] | Joint l => l end.
Lemma joint_ok n vs : Forall (fun v => has_rows v n /\ (forall m, v <> OmegaVar m)) vs -> vs <> [] ->
  joint_variables vs = Ok (Joint (flat_map parts vs)) /\ has_rows (Joint (flat_map parts vs)) n /\
  forall i, value_at (Joint (flat_map parts vs)) i = flat_map (fun v => value_at v i) vs.
Proof.
  intros HF Hne. assert (Hall : Forall (fun x => length (insts x) = n) (flat_map parts vs)).
  { apply Forall_forall. intros x Hx. apply in_flat_map in Hx as (v & Hv & Hx). rewrite Forall_forall in HF. destruct (HF v Hv) as (Hr & Ho).
    destruct v as [y|m|l]; simpl in *; [destruct Hx as [<-|[]]; assumption|contradiction|]. destruct Hr as (_ & Hr). rewrite Forall_forall in Hr. auto. }
  split; [|split].
  - unfold joint_variables. change (flatten_variables vs) with (flat_map parts vs). rewrite (lengths_agree_ok n) by assumption. destruct (forallb _ _); reflexivity.
  - split; [|assumption]. destruct vs as [|v vs]; [congruence|]. inversion HF as [|? ? (Hr & Ho) _]; subst. destruct v as [y|m|l]; simpl; [discriminate|exfalso; eapply Ho; reflexivity|]. destruct Hr as (Hr & _). destruct l; [congruence|discriminate].
  - intros i. cbn [value_at]. clear Hne Hall. induction HF as [|v vs (_ & Ho) HF IH]; [reflexivity|]. cbn [flat_map]. rewrite map_app, IH. f_equal. destruct v as [y|m|l]; [reflexivity|exfalso; eapply Ho; reflexivity|reflexivity].
Qed.
