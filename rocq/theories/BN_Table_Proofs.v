(** The joint table as a distribution; marginals of ancestral sets. *)
From Coq Require Import Reals Relations Lra.
From Verif Require Import Base Key_Model Key_Spec Key_Proofs PMF_Model PMF_Spec Prob_Spec Table_Spec BN_Model Prob_Proofs PMF_Proofs BN_Spec BN_Order_Proofs BN_Final_Proofs BN_Sum_Proofs BN_Joint_Proofs.
Open Scope nat_scope.

(** ** tuples *)
Lemma cartesian_In cs : forall t, In t (cartesian cs) <-> Forall2 lt t cs.
Proof.
  induction cs as [|c cs IH]; intros t; cbn [cartesian].
  - split; [intros [<- |[]]; constructor|]. intros H. inversion H. left; reflexivity.
  - rewrite in_flat_map. split.
    + intros (i & Hi & Hin). apply in_seq in Hi. apply in_map_iff in Hin as (t' & <- & Hin). constructor; [lia|apply IH; assumption].
    + intros H. inversion H as [|i ? t' ? H1 H2]; subst. exists i. split; [apply in_seq; lia|]. apply in_map. apply IH. assumption.
Qed.
Lemma NoDup_flat_map {A B} (f : A -> list B) l : NoDup l -> (forall x, In x l -> NoDup (f x)) -> (forall x y z, In x l -> In y l -> In z (f x) -> In z (f y) -> x = y) -> NoDup (flat_map f l).
Proof.
  induction l as [|x l IH]; intros HN H1 H2; cbn [flat_map]; [constructor|]. inversion HN as [|? ? Hx HN']; subst.
  assert (G : forall a c : list B, NoDup a -> NoDup c -> (forall z, In z a -> ~ In z c) -> NoDup (a ++ c)).
  { induction a as [|y a IHa]; intros c Ha Hc Hd; cbn [app]; [assumption|]. inversion Ha as [|? ? Hy Ha']; subst. constructor; [intros Hin; apply in_app_or in Hin as [Hin|Hin]; [contradiction|apply (Hd y); [left; reflexivity|assumption]]|apply IHa; auto].
    intros z Hz. apply Hd. right; assumption. }
  apply G; [apply H1; left; reflexivity|apply IH; [assumption|intros; apply H1; right; assumption|]|].
  - intros y1 y2 z Hy1 Hy2. apply H2; right; assumption.
  - intros z Hz Hin. apply in_flat_map in Hin as (y & Hy & Hzy). apply Hx. rewrite (H2 x y z); [assumption|left; reflexivity|right; assumption|assumption|assumption].
Qed.
Lemma cartesian_NoDup cs : NoDup (cartesian cs).
Proof.
  induction cs as [|c cs IH]; cbn [cartesian]; [repeat constructor; intros []|]. apply NoDup_flat_map; [apply seq_NoDup| |].
  - intros i _. apply FinFun.Injective_map_NoDup; [|assumption]. intros a d E. injection E as ->. reflexivity.
  - intros i j t _ _ Hi Hj. apply in_map_iff in Hi as (? & <- & _). apply in_map_iff in Hj as (? & E & _). congruence.
Qed.
Lemma cartesian_length cs : length (cartesian cs) = fold_right Nat.mul 1 cs.
Proof.
  induction cs as [|c cs IH]; [reflexivity|]. cbn [cartesian fold_right]. rewrite <- IH. clear IH. generalize 0 as a. induction c as [|c IHc]; intros a; [reflexivity|].
  cbn [seq flat_map]. rewrite app_length, map_length, IHc. lia.
Qed.
Lemma entry_of_map vs (e : nat -> nat) v : In v vs -> entry_of vs (map e vs) v = e v.
Proof.
  induction vs as [|u vs IH]; intros H; [destruct H|]. cbn [map entry_of]. destruct (Nat.eqb_spec v u) as [-> |E]; [reflexivity|]. apply IH. destruct H; [congruence|assumption].
Qed.
Lemma map_entry_of vs : NoDup vs -> forall t, length t = length vs -> map (entry_of vs t) vs = t.
Proof.
  induction vs as [|u vs IH]; intros HN t Hl; destruct t as [|x t]; try discriminate; [reflexivity|]. inversion HN as [|? ? H1 H2]; subst. cbn [map]. f_equal.
  - cbn [entry_of]. rewrite Nat.eqb_refl. reflexivity.
  - transitivity (map (entry_of vs t) vs); [|apply IH; [assumption|cbn in Hl; lia]]. apply map_ext_in. intros v Hv. cbn [entry_of]. destruct (Nat.eqb_spec v u) as [-> |E]; [contradiction|reflexivity].
Qed.
Lemma Forall2_lt_map (vs : list nat) (f g : nat -> nat) : Forall2 lt (map f vs) (map g vs) <-> forall v, In v vs -> f v < g v.
Proof.
  induction vs as [|u vs IH]; cbn [map]; [split; [intros _ v []|constructor]|]. split.
  - intros H. inversion H as [|? ? ? ? H1 H2]; subst. intros v [<- |Hv]; [assumption|apply IH; assumption].
  - intros H. constructor; [apply H; left; reflexivity|apply IH; intros v Hv; apply H; right; assumption].
Qed.

Section Tuples.
  Context (ns : list node) (Hwf : well_formed ns).
  Lemma nm_nodup : NoDup (names ns). Proof. apply (Permutation_NoDup (sort_perm _)). apply Hwf. Qed.
  Lemma nm_known v : In v (names ns) <-> In v (map nname ns). Proof. apply sort_in. Qed.
  Lemma tuple_length t : In t (tuples ns) -> length t = length (names ns).
  Proof.
    intros H. apply cartesian_In in H. assert (G : forall l m : list nat, Forall2 lt l m -> length l = length m) by (induction 1; cbn [length]; congruence).
    apply G in H. rewrite map_length in H. assumption.
  Qed.
  Lemma tuple_env t : In t (tuples ns) -> map (assignment ns t) (names ns) = t /\ good ns (assignment ns t).
  Proof.
    intros H. assert (E : map (assignment ns t) (names ns) = t) by (apply map_entry_of; [apply nm_nodup|apply tuple_length; assumption]). split; [assumption|].
    apply cartesian_In in H. rewrite <- E in H. intros v Hv. apply nm_known in Hv. revert v Hv. apply (proj1 (Forall2_lt_map (names ns) (assignment ns t) (card ns))). exact H.
  Qed.
  Lemma env_tuple e : good ns e -> In (map e (names ns)) (tuples ns) /\ forall v, In v (map nname ns) -> assignment ns (map e (names ns)) v = e v.
  Proof.
    intros He. split.
    - apply cartesian_In. apply Forall2_lt_map. intros v Hv. apply He. apply nm_known. assumption.
    - intros v Hv. apply entry_of_map. apply nm_known. assumption.
  Qed.
  Lemma joint_depends : depends (map nname ns) (joint ns).
  Proof.
    intros e e' He. rewrite !(joint_product ns) by apply Hwf. apply (product_depends ns (map nname ns) (map nname ns)); [|assumption].
    intros v Hv u [<- |Hu]; [assumption|]. apply (proj2 Hwf u v). apply parents_parent; assumption.
  Qed.
  Lemma sum_tuples g e : SumOf (fun t => (joint ns (assignment ns t) * g t)%R) (tuples ns) = sumover ns (names ns) (fun e' => (joint ns e' * g (map e' (names ns)))%R) e.
  Proof.
    unfold tuples. rewrite (sumover_cartesian ns (names ns) nm_nodup _ e). apply sumover_agree; [apply nm_nodup|]. intros e' _ _. f_equal. apply joint_depends. intros u Hu.
    apply entry_of_map. apply nm_known. assumption.
  Qed.
End Tuples.

(** ** The network's space is a probability space; an ancestral set can be treated alone *)
Section Space.
  Context (ns : list node) (Hwf : well_formed ns) (Ht : complete_tables ns) (Hst : stochastic ns) (ord : list nat) (Hord : topological ns ord).
  Let Hac : acyclic ns := topological_acyclic ns Hwf ord Hord.
  Let e0 : env := fun _ => 0.

  (* any set of variables closed under parents, alone *)
  Lemma NoDup_app_parts {A} (l m : list A) : NoDup (l ++ m) -> NoDup l /\ NoDup m /\ forall x, In x l -> ~ In x m.
  Proof.
    induction l as [|x l IH]; cbn [app]; intros H; [split; [constructor|split; [assumption|intros x []]]|]. inversion H as [|? ? H1 H2]; subst. destruct (IH H2) as (A1 & A2 & A3).
    split; [constructor; [intros Hin; apply H1, in_or_app; left; assumption|assumption]|]. split; [assumption|]. intros y [<- |Hy]; [intros Hin; apply H1, in_or_app; right; assumption|auto].
  Qed.
  Lemma marginal_sum A (g : env -> R) : NoDup A -> incl A (map nname ns) -> (forall v p, In v A -> parent_of ns p v -> In p A) -> depends A g -> forall e,
    sumover ns (names ns) (fun e' => (joint ns e' * g e')%R) e = sumover ns A (fun e' => (product ns A e' * g e')%R) e.
  Proof.
    intros HNA HA Hcl Hg e.
    set (B := filter (fun v => negb (mem v A)) ord).
    assert (HNo : NoDup ord) by (apply (Permutation_NoDup (Permutation_sym (proj1 Hord))); apply Hwf).
    assert (HB : forall v, In v B <-> In v (map nname ns) /\ ~ In v A).
    { intros v. unfold B. rewrite filter_In, negb_true_iff, mem_false. split; intros (H1 & H2); (split; [|assumption]); [apply (Permutation_in _ (proj1 Hord))|apply (Permutation_in _ (Permutation_sym (proj1 Hord)))]; assumption. }
    assert (HNB : NoDup B) by (apply NoDup_filter; assumption).
    assert (HP : Permutation (names ns) (A ++ B)).
    { apply NoDup_Permutation; [apply nm_nodup; assumption| |].
      - clear -HNA HNB HB. induction A as [|x A IH]; [assumption|]. cbn [app]. inversion HNA as [|? ? H1 H2]; subst. constructor.
        + intros H. apply in_app_or in H as [H|H]; [contradiction|]. apply HB in H as (_ & H). apply H. left; reflexivity.
        + assert (G : forall l m : list nat, NoDup l -> NoDup m -> (forall x, In x l -> ~ In x m) -> NoDup (l ++ m)).
          { induction l as [|y l IHl]; intros m Hl Hm Hd; [assumption|]. inversion Hl; subst. cbn [app]. constructor; [intros Hy; apply in_app_or in Hy as [Hy|Hy]; [contradiction|apply (Hd y); [left; reflexivity|assumption]]|]. apply IHl; auto. intros z Hz. apply Hd. right; assumption. }
          apply G; [assumption|assumption|]. intros y Hy Hyb. apply HB in Hyb as (_ & Hyb). apply Hyb. right; assumption.
      - intros v. rewrite nm_known by assumption. rewrite in_app_iff, HB. split; [|intros [H|(H & _)]; auto]. intros H. destruct (in_dec Nat.eq_dec v A); tauto. }
    assert (Ext : extensional (fun e' => (joint ns e' * g e')%R)).
    { intros e1 e2 He. rewrite (joint_depends ns Hwf e1 e2) by (intros; apply He). rewrite (Hg e1 e2) by (intros; apply He). reflexivity. }
    rewrite (sumover_perm ns _ _ _ Ext HP), sumover_app. apply sumover_agree; [assumption|]. intros e' _ Hb.
    rewrite (sumover_agree ns B _ (fun e2 => ((product ns A e' * g e') * product ns B e2)%R)); [|assumption|].
    - rewrite sumover_scal. rewrite (sum_out ns Hwf Ht Hst Hac B A e'); [lra|assumption|intros v Hv; apply HB; assumption| |assumption|].
      + intros u Hu Hub. apply HB in Hub. tauto.
      + intros l1 v l2 E p Hp. apply (parents_parent ns Hwf) in Hp. destruct (in_dec Nat.eq_dec p A) as [Hpa|Hpa]; [apply in_or_app; right; assumption|]. apply in_or_app; left.
        (* v comes after p in ord, hence in B *)
        assert (Hvo : In v ord) by (assert (In v B) as Hv by (rewrite E; apply in_or_app; right; left; reflexivity); unfold B in Hv; apply filter_In in Hv; tauto).
        apply in_split in Hvo as (o1 & o2 & Eo). assert (Hpo : In p o1) by (apply (proj2 Hord o1 v o2 Eo); assumption).
        assert (HvA : ~ In v A) by (assert (In v B) as Hv by (rewrite E; apply in_or_app; right; left; reflexivity); apply HB in Hv; tauto).
        assert (EB : B = filter (fun v => negb (mem v A)) o1 ++ v :: filter (fun v => negb (mem v A)) o2).
        { unfold B. rewrite Eo, filter_app. cbn [filter]. rewrite (proj2 (mem_false v A) HvA). reflexivity. }
        rewrite EB in E, HNB.
        assert (El : l1 = filter (fun v => negb (mem v A)) o1).
        { clear -E HNB. revert l1 E. generalize dependent (filter (fun v => negb (mem v A)) o1). generalize (filter (fun v => negb (mem v A)) o2). intros f2 f1. induction f1 as [|x f1 IH]; intros HN [|y l1] E; cbn [app] in *; try reflexivity.
          - exfalso. injection E as E1 E2. subst y. inversion HN as [|? ? H1 H2]; subst. apply H1. apply in_or_app; right; left; reflexivity.
          - exfalso. injection E as E1 E2. subst x. inversion HN as [|? ? H1 H2]; subst. apply H1. apply in_or_app; right; left; reflexivity.
          - injection E as E1 E2. subst y. f_equal. apply IH; [inversion HN; assumption|assumption]. }
        rewrite El. apply filter_In. split; [assumption|]. rewrite (proj2 (mem_false p A) Hpa). reflexivity.
    - intros e2 Ha _. rewrite (joint_product ns) by apply Hwf. rewrite (product_perm ns (map nname ns) (A ++ B)) by (eapply perm_trans; [apply sort_perm|exact HP]). rewrite product_app.
      assert (HD : forall u, In u A -> e2 u = e' u) by (intros u Hu; apply Ha; intros Hub; apply HB in Hub; tauto).
      rewrite (product_depends ns A A) with (e' := e'); [rewrite (Hg e2 e' HD); lra| |assumption].
      intros v Hv u [<- |Hu]; [assumption|]. apply (Hcl v u Hv). apply (parents_parent ns Hwf). assumption.
  Qed.

  Lemma space_probability : is_probability (network_space ns).
  Proof.
    split.
    - intros t Hin. cbn [weight network_space]. apply (tuple_env ns Hwf) in Hin as (_ & He). rewrite (joint_product ns) by apply Hwf. unfold product.
      assert (H : forall l, incl l (map nname ns) -> (0 <= Prod (map (fun v => cp ns v (assignment ns t)) l))%R).
      { induction l as [|v l IH]; intros Hl; cbn [map Prod]; [lra|]. apply Rmult_le_pos; [|apply IH; intros x Hx; apply Hl; right; assumption].
        apply (cp_nonneg ns Ht); [assumption|apply Hl; left; reflexivity|]. intros p Hp. apply He. apply (proj2 Hwf p v). apply parents_parent; assumption. }
      apply H. apply incl_refl.
    - cbn [outcomes weight network_space]. change (SumOf (fun t => joint ns (assignment ns t)) (tuples ns) = 1%R).
      rewrite (SumOf_ext _ (fun t => (joint ns (assignment ns t) * 1)%R)) by (intros; lra). rewrite (sum_tuples ns Hwf (fun _ => 1%R) e0).
      rewrite (marginal_sum [] (fun _ => 1%R)); [rewrite sumover_nil; unfold product; cbn [map Prod]; lra|constructor|intros v []|intros v p []|].
      intros e e' _. reflexivity.
  Qed.
End Space.

(** ** create_joint_pmf *)
Lemma leaves_tuple l : leaves (tuple_key l) = map Z.of_nat l.
Proof. unfold tuple_key. rewrite leaves_tup. rewrite <- (map_map Z.of_nat PInt). apply leaves_list_ints. Qed.
Lemma map_Zofnat_inj l m : map Z.of_nat l = map Z.of_nat m -> l = m.
Proof. revert m; induction l as [|x l IH]; intros [|y m] E; cbn [map] in E; try discriminate; [reflexivity|]. injection E as E1 E2. f_equal; [lia|auto]. Qed.

Section Table.
  Context (ns : list node) (Hwf : well_formed ns) (Ht : complete_tables ns) (b : bn) (Hb : final ns b).
  Let e0 : env := fun _ => 0.
  Definition joint_entries (ai : bool) : list (pyobj * R) := entries ns ai (order_nodes b) e0 1%R.
  Lemma create_joint_ok ai fuel : length ns < fuel ->
    create_joint_pmf fuel b ai = Ok {| probabilities := joint_entries ai; variableIDs := map Z.of_nat (bn_IDs b); variable_IDs := None |}.
  Proof.
    intros Hf. unfold create_joint_pmf, guarded. rewrite (fin_final _ _ Hb). change (@nil (nat * nat)) with (cur ns e0 []).
    rewrite (joint_values_ok ns Hwf Ht b Hb ai (order_nodes b) [] e0 [] 1%R fuel); [reflexivity|reflexivity|intros u []| |].
    - rewrite (Permutation_length (proj1 (fin_order _ _ Hb))), map_length. assumption.
    - intros e' _ _ [].
  Qed.
  Definition shown_tuple (ai : bool) (t : list nat) : list nat := map (shown ns ai (assignment ns t)) (names ns).
  Lemma joint_entries_In ai k r : In (k, r) (joint_entries ai) <-> exists t, In t (tuples ns) /\ k = tuple_key (shown_tuple ai t) /\ r = joint ns (assignment ns t).
  Proof.
    assert (Hprod : forall e, (1 * product ns (order_nodes b) e)%R = joint ns e).
    { intros e. rewrite (joint_product ns) by apply Hwf. rewrite (product_perm ns _ _ e (proj1 (fin_order _ _ Hb))). lra. }
    assert (HN : NoDup (order_nodes b)) by (apply (ord_nodup ns Hwf b Hb)).
    unfold joint_entries, entries. rewrite in_map_iff. split.
    - intros (e & E & Hin). injection E as <- <-. apply envs_spec in Hin as (_ & Hbd); [|assumption].
      assert (He : good ns e) by (intros v Hv; apply Hbd; apply (ord_known ns b Hb); assumption).
      destruct (env_tuple ns e He) as (Hin & Ha). exists (map e (names ns)). split; [assumption|]. split.
      + unfold keyof. f_equal. apply map_ext_in. intros v Hv. unfold shown. rewrite Ha by (apply nm_known; assumption). reflexivity.
      + rewrite Hprod. apply (joint_depends ns Hwf). intros v Hv. symmetry. apply Ha. assumption.
    - intros (t & Hin & -> & ->). destruct (tuple_env ns Hwf t Hin) as (Et & He).
      destruct (envs_complete ns (order_nodes b) HN e0 (fun u => if mem u (map nname ns) then assignment ns t u else 0)) as (e'' & Hin'' & He'').
      + intros u Hu. destruct (mem u (map nname ns)) eqn:Em; [|reflexivity]. exfalso. apply Hu. apply (ord_known ns b Hb). apply mem_In. assumption.
      + intros u Hu. apply (ord_known ns b Hb) in Hu. rewrite (proj2 (mem_In u (map nname ns)) Hu). apply He. assumption.
      + exists e''. split; [|assumption].
        assert (Hag : forall v, In v (map nname ns) -> e'' v = assignment ns t v) by (intros v Hv; rewrite He'', (proj2 (mem_In v (map nname ns)) Hv); reflexivity).
        f_equal.
        * unfold keyof, shown_tuple. f_equal. apply map_ext_in. intros v Hv. unfold shown. rewrite Hag by (apply nm_known; assumption). reflexivity.
        * rewrite Hprod. apply (joint_depends ns Hwf). assumption.
  Qed.
  Lemma envs_keys_NoDup ai : forall todo done e, order_nodes b = done ++ todo -> bounded ns done e -> NoDup (map (keyof ns ai) (envs ns todo e)).
  Proof.
    induction todo as [|v todo IH]; intros done e E Hbd; cbn [envs map]; [repeat constructor; intros []|].
    assert (HN : NoDup (done ++ v :: todo)) by (rewrite <- E; apply (ord_nodup ns Hwf b Hb)).
    destruct (NoDup_app_parts _ _ HN) as (HNd & HNvt & Hdis). inversion HNvt as [|? ? Hvt HNt]; subst.
    assert (Hv : ~ In v done) by (intros H; apply (Hdis v H); left; reflexivity).
    assert (Hgood : forall i e', i < card ns v -> In e' (envs ns todo (upd e v i)) -> good ns e' /\ e' v = i).
    { intros i e' Hi Hin. apply envs_spec in Hin as (Ha & Hbt); [|assumption]. split; [|rewrite (Ha v Hvt); apply upd_same].
      intros u Hu. apply (ord_known ns b Hb) in Hu. rewrite E in Hu. apply in_app_or in Hu as [Hu|[<- |Hu]].
      - rewrite Ha by (intros H; apply (Hdis u Hu); right; assumption). rewrite upd_other by (intros ->; contradiction). auto.
      - rewrite (Ha v Hvt), upd_same. assumption.
      - auto. }
    rewrite flat_map_concat_map, concat_map, map_map, <- flat_map_concat_map. apply NoDup_flat_map; [apply seq_NoDup| |].
    - intros i Hi. apply in_seq in Hi. apply (IH (done ++ [v])); [rewrite E, <- app_assoc; reflexivity|]. intros u Hu. apply in_app_or in Hu as [Hu|[<- |[]]]; [rewrite upd_other by (intros ->; contradiction); auto|rewrite upd_same; lia].
    - intros i j k Hi Hj Hki Hkj. apply in_seq in Hi, Hj. apply in_map_iff in Hki as (e1 & <- & H1). apply in_map_iff in Hkj as (e2 & Ek & H2).
      destruct (Hgood i e1 ltac:(lia) H1) as (G1 & <-). destruct (Hgood j e2 ltac:(lia) H2) as (G2 & <-).
      symmetry. apply (keyof_inj ns Ht ai e2 e1 G2 G1 Ek). apply (ord_known ns b Hb). rewrite E. apply in_or_app; right; left; reflexivity.
  Qed.
  Lemma joint_entries_NoDup ai : NoDup (map fst (joint_entries ai)).
  Proof. unfold joint_entries, entries. rewrite map_map. cbn [fst]. apply (envs_keys_NoDup ai (order_nodes b) []); [reflexivity|intros u []]. Qed.

  Lemma shown_index t : In t (tuples ns) -> shown_tuple true t = t.
  Proof. intros H. apply (tuple_env ns Hwf t H). Qed.
  Lemma pr1_tuple t : In t (tuples ns) -> pr1 (network_space ns) (map Z.of_nat) (map Z.of_nat t) = joint ns (assignment ns t).
  Proof.
    intros Hin. unfold pr1. rewrite pr_sum. cbn [outcomes weight network_space].
    rewrite (SumOf_ext _ (fun k => if eqv (map Z.of_nat t) (map Z.of_nat k) then joint ns (assignment ns k) else 0%R)) by (intros; rewrite eqv_sym; reflexivity).
    apply (SumOf_pick (map Z.of_nat) (fun k => joint ns (assignment ns k)) (tuples ns)); [|assumption|reflexivity].
    apply FinFun.Injective_map_NoDup; [intros a c; apply map_Zofnat_inj|apply cartesian_NoDup].
  Qed.
  Lemma joint_distribution : distribution (network_space ns) (map Z.of_nat) (joint_entries true).
  Proof.
    split; [|split].
    - apply (NoDup_map_inv (fun l => PTup (map PInt l))). rewrite map_map.
      rewrite (map_ext_in _ fst); [apply joint_entries_NoDup|]. intros [k r] Hin. apply joint_entries_In in Hin as (t & _ & -> & _). cbn [fst].
      rewrite leaves_tuple. unfold tuple_key. rewrite map_map. reflexivity.
    - intros k r Hin. apply joint_entries_In in Hin as (t & Hin & -> & ->). rewrite leaves_tuple, shown_index by assumption. symmetry. apply pr1_tuple. assumption.
    - intros v Hv. assert (Hex : exists t, In t (tuples ns) /\ map Z.of_nat t = v).
      { destruct (in_dec (list_eq_dec Z.eq_dec) v (map (map Z.of_nat) (tuples ns))) as [H|H]; [apply in_map_iff in H as (t & E & H); eauto|].
        exfalso. apply Hv. unfold pr1. rewrite pr_sum. apply SumOf_zero. intros t Hin. cbn [network_space outcomes] in Hin. destruct (eqv (map Z.of_nat t) v) eqn:E; [|reflexivity].
        apply eqv_true in E. exfalso. apply H. rewrite <- E. apply in_map. assumption. }
      destruct Hex as (t & Hin & <-). exists (tuple_key t), (joint ns (assignment ns t)). split; [|apply leaves_tuple]. apply joint_entries_In. exists t. rewrite shown_index by assumption. auto.
  Qed.
  Lemma joint_table P : length ns <> 1 -> probabilities P = joint_entries true -> variableIDs P = map Z.of_nat (bn_IDs b) -> is_table (network_space ns) (map Z.of_nat (bn_IDs b)) (map Z.of_nat) P.
  Proof.
    intros Hne EP EI.
    assert (Hln : length (names ns) = length ns) by (unfold names; rewrite <- (Permutation_length (sort_perm _)); apply map_length).
    assert (Hli : length (map Z.of_nat (bn_IDs b)) = length (names ns)) by (rewrite (fin_IDs _ _ Hb), !map_length; reflexivity).
    split.
    - assumption.
    - intros t Hin. rewrite map_length. cbn [network_space outcomes] in Hin. rewrite (tuple_length ns t Hin). symmetry. assumption.
    - rewrite EP. apply joint_distribution.
    - rewrite EP. split.
      + intros k r Hin. apply joint_entries_In in Hin as (t & Hin & -> & _). rewrite leaves_tuple, shown_index by assumption. apply tuple_length in Hin.
        unfold tuple_key. destruct t as [|x [|y t]]; [reflexivity|cbn [length] in Hin; lia|]. cbn [map as_key]. rewrite map_map. reflexivity.
      + intros k r Hin. apply joint_entries_In in Hin as (t & Hin & -> & _). rewrite leaves_tuple, shown_index by assumption. rewrite map_length, Hli. apply tuple_length. assumption.
  Qed.
End Table.
