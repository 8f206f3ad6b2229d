(** Marginalisation and conditioning of tables, in terms of components of tuples. *)
From Coq Require Import Reals Lra.
From Verif Require Import Base Key_Model Key_Spec Key_Proofs PMF_Model PMF_Spec Prob_Spec Info_Spec Table_Spec Prob_Proofs PMF_Proofs PMF_Cond_Proofs Info_Proofs PMF_Data_Proofs.
Open Scope R_scope.

Lemma component_index ids c : forall i t, index_of c ids = Some i -> (length ids <= length t)%nat -> component ids t c = nth i t 0%Z.
Proof.
  induction ids as [|j ids IH]; intros i t; [discriminate|]. destruct t as [|x t]; [simpl; lia|]. cbn [index_of component length]. intros H Hl.
  destruct (Z.eqb_spec c j); [injection H as <-; reflexivity|]. destruct (index_of c ids) as [k|] eqn:E; [|discriminate]. injection H as <-. cbn [nth]. apply IH; [reflexivity|lia].
Qed.
Lemma sel_components ids cs t : incl cs ids -> (length ids <= length t)%nat -> sel ids cs t = components ids cs t.
Proof.
  intros Hi Hl. unfold sel, components. apply map_ext_in. intros c Hc. destruct (index_of_In c ids (Hi c Hc)) as (i & E). rewrite E. symmetry. apply component_index; assumption.
Qed.
Lemma components_self ids t : NoDup ids -> length t = length ids -> components ids ids t = t.
Proof.
  revert t. induction ids as [|i ids IH]; intros [|x t] HN Hl; try discriminate; [reflexivity|]. inversion HN; subst. unfold components. cbn [map component]. rewrite Z.eqb_refl. f_equal.
  transitivity (components ids ids t); [|apply IH; [assumption|simpl in Hl; lia]]. apply map_ext_in. intros c Hc. destruct (Z.eqb_spec c i); [subst; contradiction|reflexivity].
Qed.
Lemma components_other i ids x t cs : ~ In i cs -> components (i :: ids) cs (x :: t) = components ids cs t.
Proof. intros H. unfold components. apply map_ext_in. intros c Hc. cbn [component]. destruct (Z.eqb_spec c i); [subst; contradiction|reflexivity]. Qed.
Lemma others_notin ids cs : (forall x, In x ids -> ~ In x cs) -> others ids cs = ids.
Proof. induction ids as [|i ids IH]; intros H; [reflexivity|]. unfold others. simpl. destruct (in_dec Z.eq_dec i cs) as [E|_]; [exfalso; eapply H; simpl; eauto|]. f_equal. apply IH. intros; apply H; simpl; auto. Qed.
Lemma remove_at_others ids ID i : NoDup ids -> index_of ID ids = Some i -> remove_at ids i = others ids [ID].
Proof.
  revert i. induction ids as [|j ids IH]; intros i HN H; [discriminate|]. inversion HN; subst. cbn [index_of] in H. unfold others. cbn [filter].
  destruct (Z.eqb_spec ID j) as [E|E].
  - injection H as <-. destruct (in_dec Z.eq_dec j [ID]) as [_|N]; [|exfalso; apply N; left; assumption]. unfold remove_at. cbn [firstn skipn app].
    symmetry. apply others_notin. intros x Hx [E'|[]]. subst. contradiction.
  - destruct (index_of ID ids) as [k|] eqn:Ek; [|discriminate]. injection H as <-. destruct (in_dec Z.eq_dec j [ID]) as [[E'|[]]|_]; [congruence|].
    change (remove_at (j :: ids) (S k)) with (j :: remove_at ids k). f_equal. apply IH; auto.
Qed.
Lemma remove_at_components ids ID i t : NoDup ids -> index_of ID ids = Some i -> length t = length ids -> remove_at t i = components ids (others ids [ID]) t.
Proof.
  intros HN H Hl. rewrite <- (remove_at_others ids ID i HN H). rewrite <- (components_self ids t HN Hl) at 1. unfold components. rewrite remove_at_map. reflexivity.
Qed.
Lemma others_filter ids cs : filter (fun v => negb (existsb (Z.eqb v) cs)) ids = others ids cs.
Proof.
  unfold others. apply filter_ext. intros v. destruct (in_dec Z.eq_dec v cs) as [H|H]; destruct (existsb (Z.eqb v) cs) eqn:E; try reflexivity.
  - exfalso. assert (existsb (Z.eqb v) cs = true); [|congruence]. apply existsb_exists. exists v. split; [assumption|apply Z.eqb_refl].
  - apply existsb_exists in E as (y & Hy & Ey). apply Z.eqb_eq in Ey. subst. contradiction.
Qed.
Lemma others_incl ids cs : incl (others ids cs) ids. Proof. intros x H. apply filter_In in H. tauto. Qed.

Lemma distribution_ext {A} (S : space A) T T' d : (forall a, In a (outcomes S) -> T a = T' a) -> distribution S T d -> distribution S T' d.
Proof.
  intros HE (HN & Hr & Hc). assert (E : forall v, pr1 S T v = pr1 S T' v) by (intros v; apply pr_ext; intros a Ha; rewrite HE by assumption; reflexivity).
  split; [assumption|]. split; [intros k r Hin; rewrite <- E; auto|]. intros v; rewrite <- E; auto.
Qed.
Lemma conditional_ext {A} (S : space A) X X' Z Z' z d : (forall a, In a (outcomes S) -> X a = X' a /\ Z a = Z' a) -> conditional_distribution S X Z z d -> conditional_distribution S X' Z' z d.
Proof.
  intros HE (HN & Hr & Hc). assert (E : pr1 S Z z = pr1 S Z' z) by (apply pr_ext; intros a Ha; rewrite (proj2 (HE a Ha)); reflexivity).
  assert (E2 : forall v, pr2 S X v Z z = pr2 S X' v Z' z) by (intros v; apply pr_ext; intros a Ha; destruct (HE a Ha) as (-> & ->); reflexivity).
  split; [assumption|]. split; [intros k r Hin; rewrite <- E, <- E2; auto|]. intros v; rewrite <- E2; auto.
Qed.

Section Tables.
  Context {A : Type} (S : space A).
  Hypothesis HS : is_probability S.
  Lemma table_p ids T P args : is_table S ids T P -> pmf_p P args = pr1 S T (leaves_list args).
  Proof. intros H. apply pmf_p_ok; [apply HS|apply H|apply H]. Qed.

  Lemma table_sum_over ids T P ID : is_table S ids T P -> NoDup ids -> (2 <= length ids)%nat -> In ID ids ->
    exists P', sum_over P ID = Ok P' /\ is_table S (others ids [ID]) (fun a => components ids (others ids [ID]) (T a)) P'.
  Proof.
    intros [Hi Hl Hd (Hp & Hk)] HN H2 Hin. destruct (index_of_In ID ids Hin) as (i & E). rewrite <- Hi in E.
    destruct (sum_over_ok S (proj1 HS) T P ID i Hd Hp) as (P' & E' & Hd' & Hp' & Hi' & Hk'); [rewrite Hi; exact Hk|rewrite Hi; assumption|assumption|].
    rewrite Hi in E. exists P'. split; [assumption|]. rewrite Hi, (remove_at_others ids ID i HN E) in Hi'. split.
    - assumption.
    - intros a Ha. apply map_length.
    - apply (distribution_ext S (fun a => remove_at (T a) i)); [|assumption]. intros a Ha. apply remove_at_components; auto.
    - split; [assumption|]. rewrite <- Hi'. exact Hk'.
  Qed.

  Lemma table_condition ids T P cids cond : is_table S ids T P -> is_table S cids (fun a => components ids cids (T a)) cond ->
    NoDup ids -> (2 <= length ids)%nat -> cids <> [] -> incl cids ids ->
    exists C, condition_on P cond = Ok C /\
      forall z, let t := probabilities (given C [as_key z]) in let Z := fun a => components ids cids (T a) in
        (pr1 S Z z <> 0 -> conditional_distribution S (fun a => components ids (others ids cids) (T a)) Z z t) /\
        (pr1 S Z z = 0 -> t = []) /\
        (forall k r, In (k, r) t -> k = PTup (map PInt (leaves k)) /\ length (leaves k) = length (others ids cids)).
  Proof.
    intros [Hi Hl Hd (Hp & Hk)] [Hi' Hl' Hd' (Hp' & Hk')] HN H2 Hne Hincl.
    assert (Hsel : forall a, In a (outcomes S) -> sel ids cids (T a) = components ids cids (T a)) by (intros a Ha; apply sel_components; [assumption|rewrite (Hl a Ha); lia]).
    assert (Hsel' : forall a, In a (outcomes S) -> sel ids (others ids cids) (T a) = components ids (others ids cids) (T a)) by (intros a Ha; apply sel_components; [apply others_incl|rewrite (Hl a Ha); lia]).
    assert (Epr : forall z, pr1 S (fun a => sel ids cids (T a)) z = pr1 S (fun a => components ids cids (T a)) z) by (intros z; apply pr_ext; intros a Ha; rewrite Hsel by assumption; reflexivity).
    destruct (condition_on_ok S (proj1 HS) T P cond) as (C & E & HC); rewrite ?Hi, ?Hi'; auto.
    { apply (distribution_ext S (fun a => components ids cids (T a))); [intros a Ha; symmetry; auto|assumption]. }
    exists C. split; [assumption|]. rewrite Hi, Hi', others_filter in HC. intros z. specialize (HC z). cbv zeta in *. destruct HC as (H1 & H3 & H4). rewrite Epr in H1, H3.
    assert (Hc : pr1 S (fun a => components ids cids (T a)) z <> 0 -> conditional_distribution S (fun a => components ids (others ids cids) (T a)) (fun a => components ids cids (T a)) z (probabilities (given C [as_key z]))).
    { intros Hz. eapply conditional_ext; [|exact (H1 Hz)]. intros a Ha. cbv beta. rewrite Hsel, Hsel' by assumption. auto. }
    split; [exact Hc|]. split; [assumption|]. intros k r Hin. split; [apply (H4 _ _ Hin)|].
    (* every stored key comes from a joint key *)
    destruct (Req_dec (pr1 S (fun a => components ids cids (T a)) z) 0) as [E0|E0]; [rewrite (H3 E0) in Hin; contradiction|].
    clear - Hin E Hi Hi' Hp Hk H2 Hincl.
    assert (HG : forall l C0 C1, (forall k r, In (k, r) l -> In (k, r) (probabilities P)) ->
      foldM (fun C kv => ck <- mapM (fun v => i <- joint_index ids v ;; key_at (fst kv) i) cids ;;
        nk <- mapM (fun v => i <- joint_index ids v ;; key_at (fst kv) i) (others ids cids) ;;
        Ok (store_conditional C (unwrap ck) (PTup nk) (snd kv) (pmf_p cond [unwrap ck]))) l C0 = Ok C1 ->
      (forall z k r, In (k, r) (probabilities (table_at C0 z)) -> length (leaves k) = length (others ids cids)) ->
      forall z k r, In (k, r) (probabilities (table_at C1 z)) -> length (leaves k) = length (others ids cids)).
    { induction l as [|[k0 r0] l IH]; intros C0 C1 Hsub HF HC0; [injection HF as <-; exact HC0|]. cbn [foldM fst snd] in HF.
      assert (Hin0 : In (k0, r0) (probabilities P)) by (apply Hsub; simpl; auto).
      assert (Ek : k0 = PTup (map PInt (leaves k0))) by (exact (plain_tuple k0 _ (Hp _ _ Hin0) (Hk _ _ Hin0) H2)).
      pose proof (Hk _ _ Hin0) as Hlk. rewrite Ek in HF. rewrite !key_lookup in HF by (apply others_incl || assumption). cbn [bind] in HF.
      eapply IH; [intros; apply Hsub; simpl; auto|exact HF|]. intros z' k' r' Hin'. revert Hin'. unfold store_conditional, table_at at 1.
      destruct (pyobj_eqb_spec z' (unwrap (map PInt (sel ids cids (leaves k0))))) as [->|Hne].
      - rewrite kset_same. fold (table_at C0 (unwrap (map PInt (sel ids cids (leaves k0))))). destruct (Req_EM_T _ 0); [apply HC0|]. cbn [probabilities with_probabilities].
        intros Hin'. apply (in_map fst) in Hin'. cbn [fst] in Hin'. apply kset_keys in Hin' as [->|Hin'].
        + rewrite leaves_tup, leaves_list_ints. apply sel_length.
        + apply in_map_iff in Hin' as ([k1 r1] & E1 & Hin'). cbn [fst] in E1. subst k1. eapply HC0; eauto.
      - rewrite kset_other by congruence. intros Hin'. eapply HC0. exact Hin'. }
    unfold condition_on in E. rewrite Hi' in E. destruct cids as [|c cs] eqn:Ec; [discriminate|]. cbv zeta in E. rewrite Hi, others_filter in E. rewrite given_table in Hin.
    eapply (HG (probabilities P) [] C); [auto|exact E|intros z0 k0 r0 []|exact Hin].
  Qed.
End Tables.

(** tables from data *)
Lemma data_table v n P : has_rows v n -> (0 < n)%nat -> (forall m, v <> OmegaVar m) -> new_pmf v = Ok P -> is_table (urows n) (var_IDs v) (value_at v) P.
Proof.
  intros Hr Hn Ho E. destruct (data_pmf v n Hr Hn) as (P' & E' & Hd & Hp & Hi & Hk & _). rewrite E in E'. injection E' as <-.
  assert (Hlen : arity v = length (var_IDs v)) by (destruct v; simpl; rewrite ?map_length; reflexivity).
  split; [assumption| |assumption|].
  - intros a _. rewrite value_at_length. assumption.
  - split; [assumption|]. intros k r Hin. destruct (Hk _ _ Hin) as (_ & i & _ & ->). rewrite leaves_as_key, value_at_length. assumption.
Qed.
