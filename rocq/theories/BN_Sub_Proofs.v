(** Subnetworks and partial joint tables. *)
From Coq Require Import Reals Relations Lra.
From Verif Require Import Base Key_Model Key_Spec Key_Proofs PMF_Model PMF_Spec Prob_Spec Table_Spec BN_Model Prob_Proofs PMF_Proofs Table_Proofs BN_Spec BN_Order_Proofs BN_Final_Proofs BN_Sum_Proofs BN_Joint_Proofs BN_Table_Proofs.
Open Scope nat_scope.

(** ** A set of nodes closed under parents *)
Section Sub.
  Context (ns : list node) (Hwf : well_formed ns) (ms : list node).
  Context (HNm : NoDup (map nname ms)) (Hin : forall m, In m ms -> In m (numbered ns))
          (Hcl : forall m p, In m ms -> In p (nparents m) -> In p (map nname ms)).
  Lemma numbered_names : map nname (numbered ns) = map nname ns.
  Proof. unfold numbered. apply names_map. reflexivity. Qed.
  Lemma sub_find v : In v (map nname ms) -> exists n, find_node ns v = Some n /\ find_node ms v = Some (with_ID n (id_for ns v)).
  Proof.
    intros Hv. destruct (find_node_known ms v Hv) as (m & Ef). destruct (find_node_In _ _ _ Ef) as (Hm & En). apply Hin in Hm. unfold numbered in Hm. apply in_map_iff in Hm as (n & <- & Hn).
    cbn [with_ID nname] in En. exists n. rewrite <- En, (find_node_self ns n (proj1 Hwf) Hn). rewrite En in *. auto.
  Qed.
  Lemma sub_incl : incl (map nname ms) (map nname ns).
  Proof. intros v Hv. apply sub_find in Hv as (n & Ef & _). apply find_node_In in Ef as (Hn & <-). apply in_map. assumption. Qed.
  Lemma sub_parent_ns p c : parent_of ms p c -> parent_of ns p c.
  Proof. intros (m & Hm & <- & Hp). apply Hin in Hm. unfold numbered in Hm. apply in_map_iff in Hm as (n & <- & Hn). exists n. auto. Qed.
  Lemma sub_parent p c : In c (map nname ms) -> parent_of ns p c -> parent_of ms p c.
  Proof.
    intros Hc Hp. destruct (sub_find c Hc) as (n & Ef & Em). apply (parent_iff ns c n (proj1 Hwf) Ef) in Hp. apply (parent_iff ms c _ HNm Em). exact Hp.
  Qed.
  Lemma sub_wf : well_formed ms.
  Proof. split; [assumption|]. intros p c (m & Hm & <- & Hp). eapply Hcl; eassumption. Qed.
  Lemma sub_acyclic : acyclic ns -> acyclic ms.
  Proof.
    intros Hac v Hv. apply (Hac v). revert Hv. generalize v at 2 4. intros w Hv. induction Hv as [x y H|x y z _ H1 _ H2]; [apply t_step, sub_parent_ns; assumption|eapply t_trans; eassumption].
  Qed.
  Lemma sub_values v : In v (map nname ms) -> values_of ms v = values_of ns v.
  Proof. intros Hv. destruct (sub_find v Hv) as (n & Ef & Em). rewrite (values_of_find _ _ _ Ef), (values_of_find _ _ _ Em). reflexivity. Qed.
  Lemma sub_card v : In v (map nname ms) -> card ms v = card ns v.
  Proof. intros Hv. unfold card. rewrite sub_values by assumption. reflexivity. Qed.
  Lemma sub_take m n vals : In m ms -> m = with_ID n (id_for ns (nname n)) -> (parents_take ms m vals <-> parents_take ns n vals).
  Proof.
    intros Hm E. unfold parents_take. assert (Ep : nparents m = nparents n) by (subst m; reflexivity). rewrite Ep.
    assert (Hp : forall p, In p (nparents n) -> values_of ms p = values_of ns p) by (intros p Hp; apply sub_values; apply (Hcl m p Hm); rewrite Ep; assumption).
    clear -Hp. revert vals. induction (nparents n) as [|p ps IH]; intros vals; [split; intros H; inversion H; constructor|].
    split; intros H; inversion H as [|? ? ? ? H1 H2]; subst; (constructor; [rewrite Hp in * by (left; reflexivity); assumption|apply IH; [intros q Hq; apply Hp; right; assumption|assumption]]).
  Qed.
  Lemma sub_tables : complete_tables ns -> complete_tables ms.
  Proof.
    intros Ht m Hm. pose proof (Hin m Hm) as Hn. unfold numbered in Hn. apply in_map_iff in Hn as (n & E & Hn). symmetry in E. destruct (Ht n Hn) as (H1 & H2 & H3 & H4 & H5 & H6).
    assert (Etake : forall vals, parents_take ms m vals <-> parents_take ns n vals) by (intros vals; apply sub_take; assumption).
    assert (Ek : forall vals, row_key m vals = row_key n vals) by (intros; subst m; reflexivity).
    replace (nvalues m) with (nvalues n) by (subst m; reflexivity). replace (nparents m) with (nparents n) by (subst m; reflexivity). replace (nprobs m) with (nprobs n) by (subst m; reflexivity).
    repeat (split; [assumption|]). split.
    - intros vals Hv. apply Etake in Hv. rewrite Ek. apply H5. assumption.
    - intros k row Hkr. destruct (H6 k row Hkr) as (vals & Hv & ->). exists vals. rewrite Ek. split; [apply Etake; assumption|reflexivity].
  Qed.
  Lemma sub_stochastic : stochastic ns -> stochastic ms.
  Proof. intros Hst m k row Hm Hkr. apply Hin in Hm. unfold numbered in Hm. apply in_map_iff in Hm as (n & <- & Hn). apply (Hst n k row Hn Hkr). Qed.
  Lemma sub_cp v e : In v (map nname ms) -> cp ms v e = cp ns v e.
  Proof.
    intros Hv. destruct (sub_find v Hv) as (n & Ef & Em). unfold cp. rewrite Ef, Em. unfold cond_prob, row_of. cbn [with_ID nname nparents nprobs]. f_equal.
    assert (Er : forall vals, row_key (with_ID n (id_for ns v)) vals = row_key n vals) by reflexivity. rewrite Er.
    assert (Emap : map (fun p => value_at_index ms p (e p)) (nparents n) = map (fun p => value_at_index ns p (e p)) (nparents n)).
    { apply map_ext_in. intros p Hp. unfold value_at_index. rewrite sub_values; [reflexivity|]. apply (Hcl (with_ID n (id_for ns v)) p); [apply (find_node_In _ _ _ Em)|assumption]. }
    rewrite Emap. reflexivity.
  Qed.
  Lemma sub_product L e : incl L (map nname ms) -> product ms L e = product ns L e.
  Proof. intros HL. unfold product. f_equal. apply map_ext_in. intros v Hv. apply sub_cp. apply HL. assumption. Qed.
  Lemma sub_envs L e : incl L (map nname ms) -> envs ms L e = envs ns L e.
  Proof.
    revert e; induction L as [|v L IH]; intros e HL; [reflexivity|]. cbn [envs]. rewrite sub_card by (apply HL; left; reflexivity).
    rewrite !flat_map_concat_map. f_equal. apply map_ext. intros i. apply IH. intros x Hx. apply HL. right; assumption.
  Qed.
  Lemma sub_id v : In v (map nname ms) -> id_for ms v = id_for ns v.
  Proof. intros Hv. destruct (sub_find v Hv) as (n & Ef & Em). unfold id_for at 1. rewrite Em. reflexivity. Qed.

  (** restricting an assignment of the network to the subnetwork *)
  Definition restrict (t : list nat) : list nat := map (assignment ns t) (names ms).
  Lemma sub_pr {ord} (Ht : complete_tables ns) (Hst : stochastic ns) (Hord : topological ns ord) (T : list nat -> list Z) v :
    pr1 (network_space ms) T v = pr1 (network_space ns) (fun t => T (restrict t)) v.
  Proof.
    unfold pr1. rewrite !pr_sum. cbn [outcomes weight network_space]. set (ind := fun s : list nat => if eqv (T s) v then 1%R else 0%R).
    rewrite (SumOf_ext _ (fun s => (joint ms (assignment ms s) * ind s)%R)) by (intros s _; unfold ind; destruct (eqv (T s) v); lra).
    rewrite (SumOf_ext (fun t => if eqv (T (restrict t)) v then _ else _) (fun t => (joint ns (assignment ns t) * ind (restrict t))%R)) by (intros t _; unfold ind; destruct (eqv (T (restrict t)) v); lra).
    rewrite (sum_tuples ms sub_wf ind (fun _ => 0)), (sum_tuples ns Hwf (fun t => ind (restrict t)) (fun _ => 0)).
    assert (Hnm : incl (names ms) (map nname ms)) by (intros x Hx; apply nm_known in Hx; assumption).
    assert (Hnn : NoDup (names ms)) by (apply nm_nodup; apply sub_wf).
    transitivity (sumover ns (names ns) (fun e' => (joint ns e' * ind (map e' (names ms)))%R) (fun _ => 0)).
    - rewrite (marginal_sum ns Hwf Ht Hst ord Hord (names ms) (fun e' => ind (map e' (names ms)))).
      + unfold sumover. rewrite sub_envs by assumption. apply SumOf_ext. intros e' _. f_equal. rewrite (joint_product ms) by apply sub_wf. rewrite (product_perm ms _ (names ms)) by apply sort_perm. apply sub_product. assumption.
      + assumption.
      + intros x Hx. apply sub_incl. auto.
      + intros x p Hx Hp. apply nm_known. apply Hnm in Hx. apply (proj2 sub_wf p x). apply sub_parent; assumption.
      + intros e1 e2 He. f_equal. apply map_ext_in. assumption.
    - apply sumover_agree; [apply nm_nodup; assumption|]. intros e' _ _. f_equal. f_equal. unfold restrict. apply map_ext_in. intros x Hx. symmetry. apply entry_of_map. apply nm_known. apply sub_incl. auto.
  Qed.
  Lemma sub_table {ord} (Ht : complete_tables ns) (Hst : stochastic ns) (Hord : topological ns ord) ids T P :
    (forall s, length s = length (names ms) -> length (T s) = length ids) ->
    is_table (network_space ms) ids T P -> is_table (network_space ns) ids (fun t => T (restrict t)) P.
  Proof.
    intros HT [H1 H2 (H3 & H4 & H5) H6]. split; [assumption| | |assumption].
    - intros t _. apply HT. apply map_length.
    - split; [assumption|]. split.
      + intros k r Hkr. rewrite (H4 k r Hkr). apply (sub_pr Ht Hst Hord).
      + intros v Hv. apply H5. rewrite (sub_pr Ht Hst Hord). assumption.
  Qed.
End Sub.

(** ** Summing several variables out *)
Lemma others_in ids cs x : In x (others ids cs) <-> In x ids /\ ~ In x cs.
Proof. unfold others. rewrite filter_In. destruct (in_dec Z.eq_dec x cs); split; intros (H1 & H2); split; auto; discriminate || contradiction. Qed.
Lemma others_others ids o os : others (others ids [o]) os = others ids (o :: os).
Proof.
  unfold others. induction ids as [|x ids IH]; [reflexivity|]. cbn [filter].
  destruct (in_dec Z.eq_dec x [o]) as [H|H]; destruct (in_dec Z.eq_dec x (o :: os)) as [H'|H'].
  - exact IH.
  - exfalso. apply H'. destruct H as [H|[]]. left; assumption.
  - cbn [filter]. destruct (in_dec Z.eq_dec x os) as [H2|H2]; [exact IH|]. exfalso. destruct H' as [H'|H']; [apply H; left; assumption|contradiction].
  - cbn [filter]. destruct (in_dec Z.eq_dec x os) as [H2|H2]; [exfalso; apply H'; right; assumption|]. f_equal. exact IH.
Qed.
Lemma component_components ids cs t c : In c cs -> component cs (components ids cs t) c = component ids t c.
Proof.
  unfold components. induction cs as [|d cs IH]; intros H; [destruct H|]. cbn [map component]. destruct (Z.eqb_spec c d) as [-> |E]; [reflexivity|]. apply IH. destruct H; [congruence|assumption].
Qed.
Lemma components_components ids cs ds t : incl ds cs -> components cs ds (components ids cs t) = components ids ds t.
Proof. intros H. apply map_ext_in. intros d Hd. apply component_components. apply H. assumption. Qed.
Lemma others_nil ids : others ids [] = ids.
Proof. unfold others. induction ids as [|x ids IH]; [reflexivity|]. cbn [filter]. destruct (in_dec Z.eq_dec x []) as [[]|_]. f_equal. exact IH. Qed.
Lemma others_NoDup ids cs : NoDup ids -> NoDup (others ids cs).
Proof. apply NoDup_filter. Qed.

Lemma table_fold_sum {A} (S : space A) (HS : is_probability S) over : forall ids T P, is_table S ids T P -> NoDup ids -> NoDup over -> incl over ids -> others ids over <> [] ->
  exists P', foldM sum_over over P = Ok P' /\ is_table S (others ids over) (fun a => components ids (others ids over) (T a)) P'.
Proof.
  induction over as [|o over IH]; intros ids T P HT HN HNo Hi Hne.
  - exists P. split; [reflexivity|]. rewrite others_nil. destruct HT as [H1 H2 H3 H4]. split; [assumption|intros a Ha; apply map_length| |assumption].
    apply (distribution_ext S T); [|assumption]. intros a Ha. symmetry. apply components_self; [assumption|]. apply H2. assumption.
  - inversion HNo as [|? ? Ho HNo']; subst. cbn [foldM].
    assert (H2 : 2 <= length ids).
    { destruct (others ids (o :: over)) as [|x l] eqn:E; [congruence|]. assert (Hx : In x (others ids (o :: over))) by (rewrite E; left; reflexivity). apply others_in in Hx as (Hx & Hxo).
      assert (Hoi : In o ids) by (apply Hi; left; reflexivity). destruct ids as [|y [|z ids]]; [destruct Hx| |cbn [length]; lia]. exfalso. destruct Hx as [-> |[]]. destruct Hoi as [-> |[]]. apply Hxo. left; reflexivity. }
    destruct (table_sum_over S HS ids T P o HT HN H2) as (P1 & E1 & HT1); [apply Hi; left; reflexivity|]. rewrite E1. cbn [bind].
    destruct (IH (others ids [o]) _ P1 HT1) as (P' & E' & HT').
    + apply others_NoDup. assumption.
    + assumption.
    + intros x Hx. apply others_in. split; [apply Hi; right; assumption|]. intros [-> |[]]. contradiction.
    + rewrite others_others. assumption.
    + exists P'. split; [assumption|]. rewrite others_others in HT'. destruct HT' as [G1 G2 G3 G4]. split; [assumption|intros a Ha; apply map_length| |assumption].
      eapply distribution_ext; [|exact G3]. intros a Ha. cbv beta. apply components_components. intros x Hx. apply others_in in Hx as (Hx & Hn). apply others_in. split; [assumption|].
      intros [-> |[]]. apply Hn. left; reflexivity.
Qed.
