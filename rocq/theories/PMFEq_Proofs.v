(** Lemmas about table equality and the comparison printers. *)
From Coq Require Import Reals Lra.
From Verif Require Import Base Key_Model Key_Spec Key_Proofs PMF_Model PMF_Spec Prob_Spec Info_Spec Table_Spec
  Prob_Proofs PMF_Proofs PMF_Cond_Proofs Info_Proofs PMF_Data_Proofs PMFEq_Model PMFEq_Spec.
Open Scope R_scope.

Lemma has_key_In k l : has_key k l = true <-> In k l.
Proof.
  unfold has_key. rewrite existsb_exists. split.
  - intros (x & Hx & E). apply pyobj_eqb_eq in E. subst. assumption.
  - intros H. exists k. split; [assumption|apply pyobj_eqb_refl].
Qed.
Lemma same_key_set_ok l m : same_key_set l m = true <-> forall k, In k l <-> In k m.
Proof.
  unfold same_key_set. rewrite andb_true_iff, !forallb_forall. split.
  - intros (H1 & H2) k. split; intros Hk; [apply has_key_In, H1|apply has_key_In, H2]; assumption.
  - intros H. split; intros k Hk; apply has_key_In, H; assumption.
Qed.
Lemma differ_false t a b : differ t a b = false <-> Rabs (a - b) <= t.
Proof. unfold differ. destruct (Rgt_dec (Rabs (a - b)) t); split; intros; try discriminate; try lra; reflexivity. Qed.
Lemma differ_true t a b : differ t a b = true <-> Rabs (a - b) > t.
Proof. unfold differ. destruct (Rgt_dec (Rabs (a - b)) t); split; intros; try discriminate; try lra; reflexivity. Qed.
Lemma differ_sym t a b : differ t a b = differ t b a.
Proof. unfold differ. rewrite Rabs_minus_sym. reflexivity. Qed.

Lemma tolerance_pos : 0 < tolerance.
Proof. unfold tolerance. apply Rinv_0_lt_compat. lra. Qed.

Lemma p_key P k r : plain_keys (probabilities P) -> NoDup (map fst (probabilities P)) -> In (k, r) (probabilities P) -> pmf_p P [k] = r.
Proof.
  intros Hp HN Hin. unfold pmf_p. rewrite process_key. unfold leaves_list. cbn [flat_map]. rewrite app_nil_r, (plain_get _ k r Hp HN Hin). reflexivity.
Qed.
Lemma In_key {V} (d : list (pyobj * V)) k : In k (map fst d) <-> exists v, In (k, v) d.
Proof.
  rewrite in_map_iff. split; [intros ([k' v] & E & H); cbn in E; subst; eauto|intros (v & H); exists (k, v); auto].
Qed.

Lemma pmf_eq_true tol P Q : pmf_eq tol P Q = true <->
  (forall k, In k (map fst (probabilities P)) <-> In k (map fst (probabilities Q))) /\
  (forall k, In k (map fst (probabilities P)) -> Rabs (pmf_p P [k] - pmf_p Q [k]) <= tol).
Proof.
  unfold pmf_eq. destruct (same_key_set _ _) eqn:E.
  - pose proof (proj1 (same_key_set_ok _ _) E) as E'. rewrite forallb_forall. split.
    + intros H. split; [exact E'|]. intros k Hk. specialize (H k). rewrite in_app_iff in H. specialize (H (or_introl Hk)). apply negb_true_iff in H. apply differ_false. exact H.
    + intros (_ & H) k Hk. apply negb_true_iff, differ_false, H. apply in_app_iff in Hk as [Hk|Hk]; [exact Hk|apply E'; exact Hk].
  - split; [discriminate|]. intros (H & _). apply same_key_set_ok in H. unfold keys_of in E. congruence.
Qed.
Lemma pmf_eq_agree tol P Q : plain_keys (probabilities P) -> NoDup (map fst (probabilities P)) -> plain_keys (probabilities Q) -> NoDup (map fst (probabilities Q)) ->
  (pmf_eq tol P Q = true <-> agree tol (probabilities P) (probabilities Q)).
Proof.
  intros HP NP HQ NQ. rewrite pmf_eq_true. unfold agree. split; intros (H1 & H2); (split; [exact H1|]).
  - intros k a b Ha Hb. specialize (H2 k). rewrite (p_key P k a HP NP Ha), (p_key Q k b HQ NQ Hb) in H2. apply H2. apply In_key. eauto.
  - intros k Hk. pose proof (proj1 (H1 k) Hk) as Hk'. apply In_key in Hk as (a & Ha). apply In_key in Hk' as (b & Hb).
    rewrite (p_key P k a HP NP Ha), (p_key Q k b HQ NQ Hb). eauto.
Qed.
Lemma pmf_eq_refl tol P : 0 <= tol -> pmf_eq tol P P = true.
Proof. intros H. apply pmf_eq_true. split; [tauto|]. intros k _. rewrite Rminus_diag_eq, Rabs_R0 by reflexivity. assumption. Qed.
Lemma bool_iff (a b : bool) : (a = true <-> b = true) -> a = b.
Proof. destruct a, b; intros (H1 & H2); try reflexivity; [symmetry; auto|auto]. Qed.
Lemma pmf_eq_sym tol P Q : pmf_eq tol P Q = pmf_eq tol Q P.
Proof.
  apply bool_iff. rewrite !pmf_eq_true. split; intros (H1 & H2); (split; [intros k; symmetry; apply H1|]); intros k Hk; rewrite Rabs_minus_sym; apply H2, H1; assumption.
Qed.
Lemma assoc_perm {V} (d e : list (pyobj * V)) k : Permutation d e -> NoDup (map fst d) -> assoc pyobj_eqb k d = assoc pyobj_eqb k e.
Proof.
  intros HP HN. assert (HN' : NoDup (map fst e)) by (eapply Permutation_NoDup; [apply Permutation_map; exact HP|assumption]).
  destruct (assoc pyobj_eqb k d) as [v|] eqn:E.
  - apply kassoc_In in E. symmetry. apply kassoc_NoDup; [assumption|]. eapply Permutation_in; eassumption.
  - symmetry. apply kassoc_None. apply kassoc_None in E. intros Hin. apply E. eapply Permutation_in; [apply Permutation_map, Permutation_sym; exact HP|assumption].
Qed.
Lemma pmf_p_perm P Q args : Permutation (probabilities P) (probabilities Q) -> NoDup (map fst (probabilities P)) -> pmf_p P args = pmf_p Q args.
Proof. intros HP HN. unfold pmf_p. rewrite (assoc_perm _ _ _ HP HN). reflexivity. Qed.
Lemma pmf_eq_perm tol P P' Q : Permutation (probabilities P) (probabilities P') -> NoDup (map fst (probabilities P)) -> pmf_eq tol P Q = pmf_eq tol P' Q.
Proof.
  intros HP HN. apply bool_iff. rewrite !pmf_eq_true.
  assert (HK : forall k, In k (map fst (probabilities P)) <-> In k (map fst (probabilities P'))) by (intros k; split; apply Permutation_in; [apply Permutation_map|apply Permutation_map, Permutation_sym]; assumption).
  split; intros (H1 & H2); split; intros k.
  - rewrite <- HK. apply H1.
  - intros Hk. rewrite <- (pmf_p_perm P P' [k] HP HN). apply H2, HK, Hk.
  - rewrite HK. apply H1.
  - intros Hk. rewrite (pmf_p_perm P P' [k] HP HN). apply H2, HK, Hk.
Qed.

(** ** conditional tables *)
Lemma cpmf_eq_true C D : cpmf_eq C D = true <->
  (forall k, In k (map fst C) <-> In k (map fst D)) /\ (forall k, In k (map fst C) -> pmf_eq tolerance (given C [k]) (given D [k]) = true).
Proof.
  unfold cpmf_eq. destruct (same_key_set _ _) eqn:E.
  - pose proof (proj1 (same_key_set_ok _ _) E) as E'. rewrite forallb_forall. split; [intros H; split; [exact E'|exact H]|intros (_ & H); exact H].
  - split; [discriminate|]. intros (H & _). apply same_key_set_ok in H. unfold keys_of in E. congruence.
Qed.
Lemma cpmf_eq_refl C : cpmf_eq C C = true.
Proof. apply cpmf_eq_true. split; [tauto|]. intros. apply pmf_eq_refl. left. apply tolerance_pos. Qed.
Lemma cpmf_eq_sym C D : cpmf_eq C D = cpmf_eq D C.
Proof.
  apply bool_iff. rewrite !cpmf_eq_true. split; intros (H1 & H2); (split; [intros k; symmetry; apply H1|]); intros k Hk; rewrite pmf_eq_sym; apply H2, H1; assumption.
Qed.

(** the keys of CPMF(variable, given) *)
Lemma count_cond_keys l : forall k, In k (map fst (fold_left count_cond l [])) <-> In k (map snd l).
Proof.
  assert (G : forall l C k, In k (map fst (fold_left count_cond l C)) <-> In k (map fst C) \/ In k (map snd l)).
  { induction l0 as [|[v z] l0 IH]; intros C k; cbn [fold_left map]; [simpl; tauto|]. rewrite IH. unfold count_cond at 1. rewrite kset_keys. cbn [snd In]. split; intros; intuition congruence. }
  intros k. rewrite G. simpl. tauto.
Qed.
Lemma combine_snd {A B} (l : list A) (m : list B) : length l = length m -> map snd (combine l m) = m.
Proof. revert m. induction l as [|x l IH]; intros [|y m] H; try discriminate; [reflexivity|]. cbn [combine map snd]. f_equal. apply IH. simpl in H. lia. Qed.
Lemma new_cpmf_keys v g C : length (instances v) = length (instances g) -> new_cpmf v g = Ok C -> map fst C = map fst (fold_left count_cond (combine (instances v) (instances g)) []) /\
  NoDup (map fst C) /\ forall k, In k (map fst C) <-> In k (instances g).
Proof.
  intros Hl E. unfold new_cpmf in E.
  assert (K : map fst C = map fst (fold_left count_cond (combine (instances v) (instances g)) [])).
  { remember (fold_left count_cond (combine (instances v) (instances g)) []) as C0 eqn:E0. clear E0. revert C E. induction C0 as [|[k d] C0 IH]; intros C E; cbn [mapM] in E.
    - injection E as <-. reflexivity.
    - cbn [snd] in E. destruct (normalize_counts d (zsum (map snd d))) eqn:En; [|discriminate]. cbn [bind] in E.
      destruct (mapM _ C0) as [C1|] eqn:E1; [|discriminate]. cbn [bind] in E. injection E as <-. cbn [map fst]. f_equal. apply IH. reflexivity. }
  split; [exact K|]. rewrite K. split; [apply count_cond_NoDup|]. intros k. rewrite count_cond_keys, combine_snd by assumption. tauto.
Qed.

(** ** sorting *)
Lemma key_lt_tup l m : key_lt (PTup l) (PTup m) = match l, m with
  | _, [] => Ok false | [], _ :: _ => Ok true
  | x :: l', y :: m' => if pyobj_eqb x y then key_lt (PTup l') (PTup m') else key_lt x y end.
Proof. destruct l, m; reflexivity. Qed.
Lemma lex_dec x : forall y, {lex_lt x y} + {~ lex_lt x y}.
Proof.
  induction x as [|a x IH]; intros [|b y]; simpl; auto. destruct (Z_lt_dec a b); [left; auto|]. destruct (Z.eq_dec a b); [|right; intuition]. destruct (IH y); [left; auto|right; intuition].
Defined.
Definition lexb x y : bool := if lex_dec x y then true else false.
Lemma lexb_true x y : lexb x y = true <-> lex_lt x y.
Proof. unfold lexb. destruct (lex_dec x y); split; intros; try assumption; try discriminate; try contradiction; reflexivity. Qed.
Lemma key_lt_tuples x : forall y, key_lt (PTup (map PInt x)) (PTup (map PInt y)) = Ok (lexb x y).
Proof.
  induction x as [|a x IH]; intros [|b y]; rewrite key_lt_tup; try reflexivity. cbn [map].
  destruct (pyobj_eqb_spec (PInt a) (PInt b)) as [E|E].
  - injection E as <-. rewrite IH. f_equal. apply bool_iff. rewrite !lexb_true. cbn [lex_lt]. split; [auto|]. intros [H|(_ & H)]; [lia|assumption].
  - cbn [key_lt]. f_equal. apply bool_iff. rewrite lexb_true, Z.ltb_lt. cbn [lex_lt]. split; [auto|]. intros [H|(-> & _)]; [assumption|congruence].
Qed.
Lemma key_lt_as_key x y : key_lt (as_key x) (as_key y) = if Bool.eqb (wide x) (wide y) then Ok (lexb x y) else Err TypeError.
Proof.
  destruct x as [|a [|a' x]], y as [|b [|b' y]]; cbn [wide length Nat.eqb negb Bool.eqb as_key]; try reflexivity; try apply key_lt_tuples; try (apply (key_lt_tuples []); fail).
  - cbn [key_lt]. f_equal. apply bool_iff. rewrite lexb_true, Z.ltb_lt. cbn [lex_lt]. split; [auto|]. intros [H|(_ & H)]; [assumption|destruct H].
Qed.

Lemma lex_irrefl x : ~ lex_lt x x.
Proof. induction x as [|a x IH]; simpl; [tauto|]. intros [H|(_ & H)]; [lia|auto]. Qed.
Lemma lex_trans x : forall y z, lex_lt x y -> lex_lt y z -> lex_lt x z.
Proof.
  induction x as [|a x IH]; intros [|b y] [|c z]; simpl; try tauto. intros [H|(-> & H)] [H'|(-> & H')]; [left; lia|left; lia|left; lia|right]. split; [reflexivity|eauto].
Qed.
Lemma lex_total x : forall y, lex_lt x y \/ x = y \/ lex_lt y x.
Proof.
  induction x as [|a x IH]; intros [|b y]; simpl; auto. destruct (Z_lt_dec a b); [auto|]. destruct (Z_lt_dec b a); [auto|]. assert (a = b) by lia. subst b.
  destruct (IH y) as [H|[-> |H]]; auto.
Qed.
Definition homogeneous (l : list (list Z)) : Prop := forall x y, In x l -> In y l -> wide x = wide y.
Definition increasing (l : list (list Z)) : Prop := StronglySorted lex_lt l.

Lemma insert_sorted_ok x l : (forall y, In y l -> wide y = wide x) -> ~ In x l -> increasing l ->
  exists l', insert_sorted (as_key x) (map as_key l) = Ok (map as_key l') /\ Permutation (x :: l) l' /\ increasing l'.
Proof.
  induction l as [|y l IH]; intros Hw Hx Hs; cbn [map insert_sorted].
  - exists [x]. split; [reflexivity|]. split; [apply Permutation_refl|]. constructor; constructor.
  - rewrite key_lt_as_key, (Hw y (or_introl eq_refl)), Bool.eqb_reflx. cbn [bind]. apply StronglySorted_inv in Hs as (Hs & Hf). destruct (lexb y x) eqn:E.
    + destruct IH as (l' & E' & HP & Hs'); [intros z Hz; apply Hw; right; assumption|intros Hin; apply Hx; right; assumption|assumption|].
      rewrite E'. cbn [bind]. exists (y :: l'). split; [reflexivity|]. split; [eapply perm_trans; [apply perm_swap|apply perm_skip; assumption]|].
      constructor; [assumption|]. eapply Permutation_Forall; [exact HP|]. constructor; [apply lexb_true; assumption|assumption].
    + exists (x :: y :: l). split; [reflexivity|]. split; [apply Permutation_refl|]. constructor; [constructor; assumption|].
      assert (Hxy : lex_lt x y).
      { destruct (lex_total x y) as [H|[-> |H]]; [assumption|exfalso; apply Hx; left; reflexivity|]. apply lexb_true in H. congruence. }
      constructor; [assumption|]. rewrite Forall_forall in Hf |- *. intros z Hz. eapply lex_trans; eauto.
Qed.
Lemma sort_keys_ok l : homogeneous l -> NoDup l -> exists l', sort_keys (map as_key l) = Ok (map as_key l') /\ Permutation l l' /\ increasing l'.
Proof.
  induction l as [|x l IH]; intros Hh HN; cbn [map sort_keys].
  - exists []. split; [reflexivity|]. split; [apply Permutation_refl|constructor].
  - inversion HN; subst. destruct IH as (l1 & E & HP & Hs); [intros a b Ha Hb; apply Hh; right; assumption|assumption|]. rewrite E. cbn [bind].
    destruct (insert_sorted_ok x l1) as (l2 & E2 & HP2 & Hs2); [| |assumption|].
    + intros y Hy. apply Hh; [right; eapply Permutation_in; [apply Permutation_sym; exact HP|assumption]|left; reflexivity].
    + intros Hin. apply H1. eapply Permutation_in; [apply Permutation_sym; exact HP|assumption].
    + exists l2. split; [exact E2|]. split; [|assumption]. eapply perm_trans; [apply perm_skip; exact HP|exact HP2].
Qed.
Lemma insert_mixed x y l : wide x <> wide y -> insert_sorted (as_key x) (as_key y :: l) = Err TypeError.
Proof. intros H. cbn [insert_sorted]. rewrite key_lt_as_key. destruct (Bool.eqb (wide y) (wide x)) eqn:E; [apply Bool.eqb_prop in E; congruence|reflexivity]. Qed.
Lemma sort_mixed l : NoDup l -> (exists x y, In x l /\ In y l /\ wide x <> wide y) -> sort_keys (map as_key l) = Err TypeError.
Proof.
  induction l as [|x l IH]; intros HN (a & b & Ha & Hb & Hw); [destruct Ha|]. cbn [map sort_keys]. inversion HN; subst.
  destruct (in_dec Bool.bool_dec true (map (fun p => negb (Bool.eqb (wide (fst p)) (wide (snd p)))) (list_prod l l))) as [Hm|Hm].
  - rewrite IH; [reflexivity|assumption|]. apply in_map_iff in Hm as ([u v] & E & Hin). cbn [fst snd] in E. apply in_prod_iff in Hin as (Hu & Hv). exists u, v. split; [assumption|]. split; [assumption|]. intros E'. rewrite E', Bool.eqb_reflx in E. discriminate.
  - assert (Hh : homogeneous l).
    { intros u v Hu Hv. destruct (Bool.bool_dec (wide u) (wide v)) as [E|E]; [assumption|]. exfalso. apply Hm. apply in_map_iff. exists (u, v). cbn [fst snd]. split; [|apply in_prod_iff; auto].
      destruct (Bool.eqb (wide u) (wide v)) eqn:E'; [apply Bool.eqb_prop in E'; contradiction|reflexivity]. }
    destruct (sort_keys_ok l Hh H2) as (l1 & E & HP & _). rewrite E. cbn [bind].
    assert (Hx : exists y, In y l /\ wide y <> wide x).
    { destruct Ha as [<-|Ha], Hb as [<-|Hb]; [congruence|exists b; split; [assumption|congruence]|exists a; split; [assumption|congruence]|]. exfalso. apply Hw, Hh; assumption. }
    destruct Hx as (y & Hy & Hwy). destruct l1 as [|y1 l1]; [apply Permutation_sym, Permutation_nil in HP; subst; destruct Hy|].
    cbn [map]. apply insert_mixed. rewrite (Hh y1 y) in *; [congruence|eapply Permutation_in; [apply Permutation_sym; exact HP|left; reflexivity]|assumption].
Qed.

Lemma as_set_ok l : NoDup (as_set l) /\ forall k, In k (as_set l) <-> In k l.
Proof.
  induction l as [|x l (HN & Hk)]; cbn [as_set]; [split; [constructor|tauto]|]. destruct (has_key x l) eqn:E.
  - split; [assumption|]. intros k. rewrite Hk. apply has_key_In in E. simpl. split; [auto|]. intros [<-|H]; assumption.
  - split.
    + constructor; [|assumption]. rewrite Hk. intros H. apply has_key_In in H. congruence.
    + intros k. cbn [In]. rewrite Hk. tauto.
Qed.
Lemma plain_list (l : list pyobj) : (forall k, In k l -> k = as_key (leaves k)) -> l = map as_key (map leaves l).
Proof. intros H. rewrite map_map. rewrite <- (map_id l) at 1. apply map_ext_in. exact H. Qed.
Lemma NoDup_leaves (l : list pyobj) : (forall k, In k l -> k = as_key (leaves k)) -> NoDup l -> NoDup (map leaves l).
Proof.
  induction l as [|x l IH]; intros H HN; cbn [map]; [constructor|]. inversion HN; subst. constructor; [|apply IH; [intros; apply H; right; assumption|assumption]].
  intros Hin. apply in_map_iff in Hin as (y & E & Hy). apply H2. rewrite (H x (or_introl eq_refl)), <- E, <- (H y (or_intror Hy)). assumption.
Qed.
