(** C09, C10, C12, C47: probability tables and information theory.  Statements only. *)
From Coq Require Import Reals Lra.
From Verif Require Import Base Key_Model Key_Spec Key_Proofs PMF_Model PMF_Spec Prob_Spec Info_Spec Table_Spec
  Prob_Proofs PMF_Proofs PMF_Cond_Proofs Info_Proofs PMF_Data_Proofs Table_Proofs.
Open Scope R_scope.

(** ** C47: flattening *)
Theorem C47_flatten_gives_the_leaves : forall l : list pyobj,
  evaluates (fun fuel => flatten_loop fuel [] l) (Ok (map PInt (leaves_list l))) /\ flatten l = map PInt (leaves_list l).
Proof. intros l. split; [apply flatten_terminates|apply flatten_leaves]. Qed.
Print Assumptions C47_flatten_gives_the_leaves.
Theorem C47_flatten_idempotent_and_nesting_blind : forall l m : list pyobj,
  flatten (flatten l) = flatten l /\ flatten (l ++ m) = flatten l ++ flatten m /\ flatten [PTup l] = flatten l /\
  (leaves_list l = leaves_list m <-> flatten l = flatten m).
Proof.
  intros l m. rewrite !flatten_leaves, leaves_list_ints, leaves_list_app, map_app. repeat split.
  - unfold leaves_list at 1. cbn [flat_map]. rewrite app_nil_r, leaves_tup. reflexivity.
  - intros ->; reflexivity.
  - intros E. apply (f_equal leaves_list) in E. rewrite !leaves_list_ints in E. exact E.
Qed.
Print Assumptions C47_flatten_idempotent_and_nesting_blind.
(** ... so that how the arguments of p and given are grouped does not matter *)
Theorem C47_lookups_ignore_nesting : forall P C args args', leaves_list args = leaves_list args' ->
  pmf_p P args = pmf_p P args' /\ given C args = given C args'.
Proof. intros P C args args' E. unfold pmf_p, given. rewrite !process_key, E. auto. Qed.
Print Assumptions C47_lookups_ignore_nesting.
(** JointVariables of nested joint variables holds the simple variables in order *)
Theorem C47_joint_variables_flattened : forall n vs, Forall (fun v => has_rows v n /\ (forall m, v <> OmegaVar m)) vs -> vs <> [] ->
  exists v, joint_variables vs = Ok v /\ has_rows v n /\ forall i, value_at v i = flat_map (fun u => value_at u i) vs.
Proof. intros n vs H Hne. destruct (joint_ok n vs H Hne) as (E & Hr & Hv). eauto. Qed.
Print Assumptions C47_joint_variables_flattened.
Theorem C47_joint_variables_unequal_lengths : forall vs x, flatten_variables vs = x :: tl (flatten_variables vs) -> Forall (fun y => lazy y = false) (flatten_variables vs) ->
  ((exists v, joint_variables vs = Ok v) <-> Forall (fun y => length (insts y) = length (insts x)) (flatten_variables vs)) /\
  (joint_variables vs = Err UnequalCount <-> ~ Forall (fun y => length (insts y) = length (insts x)) (flatten_variables vs)).
Proof.
  intros vs x Hx Hl. unfold joint_variables.
  assert (E : forallb (fun v => negb (lazy v)) (flatten_variables vs) = true) by (apply forallb_forall; intros y Hy; rewrite Forall_forall in Hl; rewrite (Hl y Hy); reflexivity).
  rewrite E. destruct (lengths_agree (flatten_variables vs)) eqn:E'.
  - assert (H : Forall (fun y => length (insts y) = length (insts x)) (flatten_variables vs)) by (rewrite Hx in *; apply lengths_agree_inv; assumption).
    split; split; intros H'; [assumption|eauto|discriminate|contradiction].
  - assert (H : ~ Forall (fun y => length (insts y) = length (insts x)) (flatten_variables vs)) by (intros H; apply lengths_agree_ok in H; congruence).
    split; split; intros H'; [destruct H'; discriminate|contradiction|assumption|reflexivity].
Qed.
Print Assumptions C47_joint_variables_unequal_lengths.
Example C47_nonvacuous : leaves_list [PTup [PInt 1; PTup []]; PTup [PTup [PInt 2]]] = [1; 2]%Z /\
  flatten [PTup [PInt 1; PTup []]; PTup [PTup [PInt 2]]] = [PInt 1; PInt 2].
Proof. split; vm_compute; reflexivity. Qed.

(** two concrete columns *)
Definition colx : variable := {| vid := 3; insts := [0; 0; 1; 1]%Z; array := true; lazy := true |}.
Definition coly : variable := {| vid := 5; insts := [0; 1; 1; 1]%Z; array := false; lazy := false |}.
Definition colz : variable := {| vid := 7; insts := [0; 0; 0; 1]%Z; array := true; lazy := true |}.

(** ** C09 *)
Theorem C09_pmf_is_empirical_distribution : forall v n, has_rows v n -> (0 < n)%nat ->
  exists P, new_pmf v = Ok P /\
    (forall args, pmf_p P args = INR (matching v n (leaves_list args)) / INR n) /\
    (forall k r, In (k, r) (probabilities P) -> 0 < r) /\
    Sum (map snd (probabilities P)) = 1 /\
    NoDup (map fst (probabilities P)) /\
    (forall k, In k (map fst (probabilities P)) <-> exists i, (i < n)%nat /\ k = as_key (value_at v i)).
Proof.
  intros v n Hr Hn. destruct (data_pmf v n Hr Hn) as (P & E & Hd & Hp & Hi & Hk & _).
  assert (HS : is_probability (urows n)) by (apply uniform_probability; destruct n; [lia|discriminate]).
  exists P. split; [assumption|]. split; [|split; [|split; [|split]]].
  - intros args. rewrite (pmf_p_ok (urows n) _ P args (proj1 HS) Hd Hp). apply data_pr.
  - intros k r Hin. destruct (Hk _ _ Hin) as (Hnz & _). pose proof (proj1 (proj2 Hd) _ _ Hin) as Er. pose proof (pr1_nonneg (urows n) (proj1 HS) (value_at v) (leaves k)). lra.
  - apply (distribution_total (urows n) (proj1 HS) (value_at v)); assumption.
  - apply NoDup_leaves_fst. apply Hd.
  - intros k. split.
    + intros Hin. apply in_map_iff in Hin as ([k' r] & <- & Hin). destruct (Hk _ _ Hin) as (_ & H). exact H.
    + intros (i & Hi' & ->). destruct (proj2 (proj2 Hd) (value_at v i)) as (k & r & Hin & Ek).
      * assert (0 < pr1 (urows n) (value_at v) (value_at v i)); [|lra]. apply pr1_at; [apply HS|apply in_seq; lia|].
        cbn [weight]. apply Rinv_0_lt_compat. apply lt_0_INR. rewrite seq_length. assumption.
      * rewrite <- Ek, <- (Hp _ _ Hin). apply (in_map fst) in Hin. exact Hin.
Qed.
Print Assumptions C09_pmf_is_empirical_distribution.
Theorem C09_empty_variable : forall v args, has_rows v 0 -> exists P, new_pmf v = Ok P /\ probabilities P = [] /\ pmf_p P args = 0.
Proof. intros v args H. destruct (data_empty v H) as (P & E & HP). exists P. split; [assumption|]. split; [assumption|]. unfold pmf_p. rewrite HP. reflexivity. Qed.
Print Assumptions C09_empty_variable.
Example C09_nonvacuous : has_rows (Joint [colx; coly]) 4 /\ matching (Joint [colx; coly]) 4 [1; 1]%Z = 2%nat /\
  matching (Simple coly) 4 [1]%Z = 3%nat.
Proof. split; [split; [discriminate|repeat constructor]|]. split; reflexivity. Qed.

(** ** C10 *)
(** PMF objects built from data are tables in the sense used below *)
Theorem C10_data_tables : forall v n, has_rows v n -> (0 < n)%nat -> (forall m, v <> OmegaVar m) ->
  exists P, new_pmf v = Ok P /\ is_table (uniform (seq 0 n)) (var_IDs v) (value_at v) P.
Proof. intros v n Hr Hn Ho. destruct (data_pmf v n Hr Hn) as (P & E & _). exists P. split; [assumption|]. eapply data_table; eauto. Qed.
Print Assumptions C10_data_tables.
Theorem C10_sum_over_marginalises : forall (A : Type) (S : space A) ids T P ID, is_probability S -> is_table S ids T P ->
  NoDup ids -> (2 <= length ids)%nat -> In ID ids ->
  exists P', sum_over P ID = Ok P' /\
    is_table S (others ids [ID]) (fun a => components ids (others ids [ID]) (T a)) P' /\
    Sum (map snd (probabilities P')) = 1 /\
    forall args, pmf_p P' args = pr S (fun a => if list_eq_dec Z.eq_dec (components ids (others ids [ID]) (T a)) (leaves_list args) then true else false).
Proof.
  intros A S ids T P ID HS HT HN H2 Hin. destruct (table_sum_over S HS ids T P ID HT HN H2 Hin) as (P' & E & HT'). exists P'. split; [assumption|]. split; [assumption|]. split.
  - apply (distribution_total S (proj1 HS) _ _ HS (table_dist _ _ _ _ HT')).
  - intros args. apply (table_p S HS _ _ _ args HT').
Qed.
Print Assumptions C10_sum_over_marginalises.
Theorem C10_sum_over_single_variable_refuted : forall n v, length (insts v) = n -> (0 < n)%nat ->
  exists P, new_pmf (Simple v) = Ok P /\ sum_over P (vid v) = Err TypeError.
Proof.
  intros n v Hl Hn. destruct (data_pmf (Simple v) n Hl Hn) as (P & E & Hd & Hp & Hi & Hk & _). exists P. split; [assumption|].
  destruct (probabilities P) as [|[k r] l] eqn:EP.
  - exfalso. assert (HS : is_probability (urows n)) by (apply uniform_probability; destruct n; [lia|discriminate]).
    pose proof (distribution_total (urows n) (proj1 HS) _ _ HS Hd) as H. simpl in H. lra.
  - destruct (Hk k r) as (_ & i & _ & Ek); [left; reflexivity|]. cbn [value_at as_key] in Ek. subst k.
    rewrite (sum_over_single P (vid v) _ _ _ (vid v) Hi EP). rewrite Z.eqb_refl. reflexivity.
Qed.
Print Assumptions C10_sum_over_single_variable_refuted.
(** conditioning: for each value z of the conditioning variables, the stored entries are the
    conditional distribution; each sums to one; and the chain rule holds for every joint value *)
Theorem C10_condition_on_chain_rule : forall (A : Type) (S : space A) ids T P cids cond, is_probability S ->
  is_table S ids T P -> is_table S cids (fun a => components ids cids (T a)) cond ->
  NoDup ids -> (2 <= length ids)%nat -> cids <> [] -> incl cids ids ->
  let Z := fun a => components ids cids (T a) in let X := fun a => components ids (others ids cids) (T a) in
  exists C, condition_on P cond = Ok C /\
    (forall z, pr1 S Z z <> 0 ->
       conditional_distribution S X Z z (probabilities (given C [as_key z])) /\
       Sum (map snd (probabilities (given C [as_key z]))) = 1 /\
       forall k r, In (k, r) (probabilities (given C [as_key z])) -> r * pmf_p cond [as_key z] = pr2 S X (leaves k) Z z) /\
    (forall z, pr1 S Z z = 0 -> probabilities (given C [as_key z]) = []) /\
    (length (others ids cids) <> 1%nat -> forall x z, pmf_p (given C [as_key z]) [as_key x] * pmf_p cond [as_key z] = pr2 S X x Z z).
Proof.
  intros A S ids T P cids cond HS HT HTc HN H2 Hne Hincl. cbv zeta. destruct (table_condition S HS ids T P cids cond HT HTc HN H2 Hne Hincl) as (C & E & HC).
  cbv zeta in HC. exists C. split; [assumption|].
  set (Z := fun a => components ids cids (T a)) in *. set (X := fun a => components ids (others ids cids) (T a)) in *.
  assert (Hcond : forall z, pmf_p cond [as_key z] = pr1 S Z z).
  { intros z. rewrite (table_p S HS _ _ _ _ HTc). unfold leaves_list. cbn [flat_map]. rewrite app_nil_r, leaves_as_key. reflexivity. }
  split; [|split].
  - intros z Hz. destruct (HC z) as (H1 & _). specialize (H1 Hz). split; [assumption|]. split; [apply (conditional_total S (proj1 HS) X Z z); assumption|].
    intros k r Hin. rewrite Hcond, (proj1 (proj2 H1) _ _ Hin). field. assumption.
  - intros z Hz. apply (HC z). assumption.
  - intros Hlen x z. rewrite Hcond. destruct (HC z) as (H1 & H3 & H4). destruct (Req_dec (pr1 S Z z) 0) as [E0|E0].
    + rewrite E0, Rmult_0_r. pose proof (pr2_le_r S (proj1 HS) X x Z z). pose proof (pr2_nonneg S (proj1 HS) X x Z z). lra.
    + rewrite (cond_lookup S Z X z _ _ E0 (H1 E0)).
      * unfold leaves_list. cbn [flat_map]. rewrite app_nil_r, leaves_as_key. field. assumption.
      * intros k r Hin. destruct (H4 _ _ Hin) as (Hk & Hl). rewrite Hk at 1. destruct (leaves k) as [|a [|b l]]; [reflexivity|simpl in Hl; congruence|reflexivity].
Qed.
Print Assumptions C10_condition_on_chain_rule.
(** ... but when a single variable remains, p() of every conditional table answers 0 *)
Theorem C10_lookup_with_one_remaining_variable_refuted : forall (A : Type) (S : space A) ids T P cids cond, is_probability S ->
  is_table S ids T P -> is_table S cids (fun a => components ids cids (T a)) cond ->
  NoDup ids -> (2 <= length ids)%nat -> cids <> [] -> incl cids ids -> length (others ids cids) = 1%nat ->
  exists C, condition_on P cond = Ok C /\ forall x z, pmf_p (given C [as_key z]) [PInt x] = 0.
Proof.
  intros A S ids T P cids cond HS HT HTc HN H2 Hne Hincl H1. destruct (table_condition S HS ids T P cids cond HT HTc HN H2 Hne Hincl) as (C & E & HC).
  exists C. split; [assumption|]. intros x z. unfold pmf_p. destruct (assoc _ _ _) as [r|] eqn:Ea; [|reflexivity]. exfalso. apply kassoc_In in Ea. rewrite process_key in Ea.
  cbn in Ea. destruct (HC z) as (_ & _ & H4). destruct (H4 _ _ Ea) as (Hk & _). cbn in Hk. discriminate.
Qed.
Print Assumptions C10_lookup_with_one_remaining_variable_refuted.
Example C10_nonvacuous : exists P Q, new_pmf (Joint [colx; coly; colz]) = Ok P /\ new_pmf (Simple colz) = Ok Q /\
  is_table (uniform (seq 0 4)) [3; 5; 7]%Z (value_at (Joint [colx; coly; colz])) P /\
  is_table (uniform (seq 0 4)) [7]%Z (fun i => components [3; 5; 7]%Z [7]%Z (value_at (Joint [colx; coly; colz]) i)) Q /\
  pr1 (uniform (seq 0 4)) (value_at (Simple colz)) [0]%Z = 3 / 4.
Proof.
  destruct (C10_data_tables (Joint [colx; coly; colz]) 4) as (P & EP & HP); [split; [discriminate|repeat constructor]|lia|discriminate|].
  destruct (C10_data_tables (Simple colz) 4) as (Q & EQ & HQ); [reflexivity|lia|discriminate|].
  exists P, Q. split; [assumption|]. split; [assumption|]. split; [exact HP|]. split; [exact HQ|].
  rewrite data_pr. change (matching (Simple colz) 4 [0%Z]) with 3%nat. simpl. lra.
Qed.

(** ** C12 *)
(** from data: the tables, and what is computed from them; X and Y any simple or joint variables,
    Z any variable including Omega *)
Theorem C12_cmi_from_data : forall X Y Z n b, has_rows X n -> has_rows Y n -> has_rows Z n -> (0 < n)%nat ->
  (forall m, X <> OmegaVar m) -> (forall m, Y <> OmegaVar m) -> base_valid b -> 0 <= base_factor b ->
  let I := cmi (uniform (seq 0 n)) (value_at X) (value_at Y) (value_at Z) in
  exists CXY CX CY PZ, calculate_pmf_for_cmi X Y Z = Ok (CXY, CX, CY, PZ) /\
    conditional_mutual_information CXY CX CY PZ b = Ok (I * base_factor b) /\
    cmi_sum CXY CX CY PZ b = Ok (I * base_factor b) /\
    0 <= I * base_factor b.
Proof.
  intros X Y Z n b HX HY HZ Hn Ho Ho' Hb Hf I.
  assert (HS : is_probability (urows n)) by (apply uniform_probability; destruct n; [lia|discriminate]).
  destruct (joint_ok n [X; Y]) as (EJ & HJ & Hv); [repeat constructor; auto|discriminate|].
  assert (HvJ : forall i, value_at (Joint (flat_map parts [X; Y])) i = value_at X i ++ value_at Y i) by (intros i; rewrite Hv; cbn [flat_map]; rewrite app_nil_r; reflexivity).
  set (J := Joint (flat_map parts [X; Y])) in *.
  destruct (new_cpmf_rv J Z (seq 0 n) (fun i => value_at X i ++ value_at Y i) (value_at Z)) as (CXY & E1 & H1 & P1 & _).
  { rewrite (instances_ok J n HJ). apply map_ext. intros i. rewrite HvJ. reflexivity. }
  { apply instances_ok; assumption. }
  destruct (new_cpmf_rv X Z (seq 0 n) (value_at X) (value_at Z)) as (CX & E2 & H2 & _); [apply instances_ok; assumption|apply instances_ok; assumption|].
  destruct (new_cpmf_rv Y Z (seq 0 n) (value_at Y) (value_at Z)) as (CY & E3 & H3 & _); [apply instances_ok; assumption|apply instances_ok; assumption|].
  destruct (data_pmf Z n HZ Hn) as (PZ & E4 & H4 & _).
  exists CXY, CX, CY, PZ. unfold calculate_pmf_for_cmi. rewrite EJ. cbn [bind]. rewrite E1. cbn [bind]. rewrite E2. cbn [bind]. rewrite E3. cbn [bind]. rewrite E4. cbn [bind].
  split; [reflexivity|].
  destruct (cmi_code_ok (urows n) (value_at X) (value_at Y) (value_at Z) (arity X) CXY CX CY PZ b) as (C1 & C2); auto.
  { intros i _. apply value_at_length. }
  split; [exact C2|]. split; [exact C1|]. apply Rmult_le_pos; [apply cmi_nonneg; assumption|assumption].
Qed.
Print Assumptions C12_cmi_from_data.
Theorem C12_mi_from_data : forall X Y n b, has_rows X n -> has_rows Y n -> (0 < n)%nat ->
  (forall m, X <> OmegaVar m) -> (forall m, Y <> OmegaVar m) -> base_valid b ->
  exists PXY PX PY, calculate_pmf_for_mi X Y = Ok (PXY, PX, PY) /\
    mutual_information PXY PX PY b = Ok (mi (uniform (seq 0 n)) (value_at X) (value_at Y) * base_factor b).
Proof.
  intros X Y n b HX HY Hn Ho Ho' Hb.
  assert (HS : is_probability (urows n)) by (apply uniform_probability; destruct n; [lia|discriminate]).
  destruct (joint_ok n [X; Y]) as (EJ & HJ & Hv); [repeat constructor; auto|discriminate|].
  assert (HvJ : forall i, value_at (Joint (flat_map parts [X; Y])) i = value_at X i ++ value_at Y i) by (intros i; rewrite Hv; cbn [flat_map]; rewrite app_nil_r; reflexivity).
  set (J := Joint (flat_map parts [X; Y])) in *.
  destruct (data_pmf J n HJ Hn) as (PXY & E1 & H1 & P1 & _). destruct (data_pmf X n HX Hn) as (PX & E2 & H2 & _). destruct (data_pmf Y n HY Hn) as (PY & E3 & H3 & _).
  exists PXY, PX, PY. unfold calculate_pmf_for_mi. rewrite EJ. cbn [bind]. rewrite E1. cbn [bind]. rewrite E2. cbn [bind]. rewrite E3. cbn [bind]. split; [reflexivity|].
  apply (mi_code_ok (urows n) (value_at X) (value_at Y) (arity X)); auto.
  - intros i _. apply value_at_length.
  - apply (distribution_ext _ (value_at J)); [intros; apply HvJ|assumption].
Qed.
Print Assumptions C12_mi_from_data.
(** from any exact tables: unconditional and conditional *)
Theorem C12_from_exact_tables : forall (A : Type) (S : space A) X Y Z lx CXY CX CY PZ b, is_probability S ->
  (forall a, In a (outcomes S) -> length (X a) = lx) -> base_valid b -> 0 <= base_factor b ->
  cond_table S (fun a => X a ++ Y a) Z CXY -> cond_plain CXY -> cond_table S X Z CX -> cond_table S Y Z CY ->
  distribution S Z (probabilities PZ) ->
  conditional_mutual_information CXY CX CY PZ b = Ok (cmi S X Y Z * base_factor b) /\
  cmi_sum CXY CX CY PZ b = Ok (cmi S X Y Z * base_factor b).
Proof. intros. split; eapply cmi_code_ok; eauto. Qed.
Print Assumptions C12_from_exact_tables.
(** the quantity computed is non-negative, symmetric, and zero exactly at independence *)
Theorem C12_information_inequalities : forall (A : Type) (S : space A) X Y Z, is_probability S ->
  0 <= cmi S X Y Z /\ cmi S X Y Z = cmi S Y X Z /\ (cmi S X Y Z = 0 <-> cond_independent S X Y Z) /\
  0 <= mi S X Y /\ mi S X Y = mi S Y X /\ (mi S X Y = 0 <-> independent S X Y).
Proof.
  intros A S X Y Z HS. rewrite !(mi_cmi S) by assumption. rewrite (independent_cond S X Y HS). repeat split; try (apply cmi_nonneg; assumption); try (apply cmi_sym); apply (cmi_zero_iff S HS).
Qed.
Print Assumptions C12_information_inequalities.
Theorem C12_base_factor : forall b, b = BaseE \/ b = Base2 \/ b = Base10 \/ (exists c, 1 < c /\ b = BaseFloat c) -> base_valid b /\ 0 < base_factor b.
Proof.
  assert (H : forall c, 1 < c -> 0 < / ln c) by (intros c Hc; apply Rinv_0_lt_compat; rewrite <- ln_1; apply ln_increasing; lra).
  intros b [-> | [-> | [-> | (c & Hc & ->)]]]; simpl; (split; [try exact I; try lra|]); try lra; apply H; lra.
Qed.
Print Assumptions C12_base_factor.
(** every other base is refused, whatever the data, and even when the tables are empty if it is not a float *)
Theorem C12_every_base_is_valid_or_refused : forall b, base_valid b \/ exists e, invalid_base b e.
Proof.
  destruct b as [| | |c|]; cbn [base_valid invalid_base]; eauto.
  destruct (Rlt_dec 0 c) as [Hc|Hc]; [|right; exists ValueError; left; split; [lra|reflexivity]].
  destruct (Req_EM_T c 1) as [-> |Hn]; [right; exists ZeroDivisionError; right; auto|left; auto].
Qed.
Print Assumptions C12_every_base_is_valid_or_refused.
Theorem C12_invalid_bases_refused : forall X Y Z n b e, has_rows X n -> has_rows Y n -> has_rows Z n -> (0 < n)%nat ->
  (forall m, X <> OmegaVar m) -> (forall m, Y <> OmegaVar m) -> invalid_base b e ->
  (exists PXY PX PY, calculate_pmf_for_mi X Y = Ok (PXY, PX, PY) /\ mutual_information PXY PX PY b = Err e) /\
  (exists CXY CX CY PZ, calculate_pmf_for_cmi X Y Z = Ok (CXY, CX, CY, PZ) /\ conditional_mutual_information CXY CX CY PZ b = Err e).
Proof.
  intros X Y Z n b e HX HY HZ Hn Ho Ho' Hb.
  assert (HS : is_probability (urows n)) by (apply uniform_probability; destruct n; [lia|discriminate]).
  assert (Hpos : exists a, In a (outcomes (urows n)) /\ 0 < weight (urows n) a).
  { exists 0%nat. split; [apply in_seq; lia|]. cbn [weight]. apply Rinv_0_lt_compat. apply lt_0_INR. rewrite seq_length. assumption. }
  destruct (joint_ok n [X; Y]) as (EJ & HJ & Hv); [repeat constructor; auto|discriminate|].
  assert (HvJ : forall i, value_at (Joint (flat_map parts [X; Y])) i = value_at X i ++ value_at Y i) by (intros i; rewrite Hv; cbn [flat_map]; rewrite app_nil_r; reflexivity).
  set (J := Joint (flat_map parts [X; Y])) in *. split.
  - destruct (data_pmf J n HJ Hn) as (PXY & E1 & H1 & P1 & _). destruct (data_pmf X n HX Hn) as (PX & E2 & H2 & _). destruct (data_pmf Y n HY Hn) as (PY & E3 & H3 & _).
    exists PXY, PX, PY. unfold calculate_pmf_for_mi. rewrite EJ. cbn [bind]. rewrite E1. cbn [bind]. rewrite E2. cbn [bind]. rewrite E3. cbn [bind]. split; [reflexivity|].
    rewrite mi_omega. apply (cmi_sum_bad (urows n) (proj1 HS) (value_at X) (value_at Y) (fun _ => [1%Z])); try assumption.
    + apply omega_table; [assumption|]. apply (distribution_ext _ (value_at J)); [intros; apply HvJ|assumption].
    + apply omega_plain; assumption.
    + apply omega_table; assumption.
    + apply omega_table; assumption.
    + apply omega_dist; assumption.
  - destruct (new_cpmf_rv J Z (seq 0 n) (fun i => value_at X i ++ value_at Y i) (value_at Z)) as (CXY & E1 & H1 & P1 & _).
    { rewrite (instances_ok J n HJ). apply map_ext. intros i. rewrite HvJ. reflexivity. }
    { apply instances_ok; assumption. }
    destruct (new_cpmf_rv X Z (seq 0 n) (value_at X) (value_at Z)) as (CX & E2 & H2 & _); [apply instances_ok; assumption|apply instances_ok; assumption|].
    destruct (new_cpmf_rv Y Z (seq 0 n) (value_at Y) (value_at Z)) as (CY & E3 & H3 & _); [apply instances_ok; assumption|apply instances_ok; assumption|].
    destruct (data_pmf Z n HZ Hn) as (PZ & E4 & H4 & _).
    exists CXY, CX, CY, PZ. unfold calculate_pmf_for_cmi. rewrite EJ. cbn [bind]. rewrite E1. cbn [bind]. rewrite E2. cbn [bind]. rewrite E3. cbn [bind]. rewrite E4. cbn [bind].
    split; [reflexivity|]. unfold conditional_mutual_information.
    rewrite (cmi_sum_bad (urows n) (proj1 HS) (value_at X) (value_at Y) (value_at Z) CXY CX CY PZ b e); auto.
Qed.
Print Assumptions C12_invalid_bases_refused.
Theorem C12_non_float_base_on_empty_tables : forall PXY PX PY CXY CX CY PZ,
  mutual_information PXY PX PY BaseOther = Err AssertionError /\ conditional_mutual_information CXY CX CY PZ BaseOther = Err AssertionError.
Proof. intros. split; reflexivity. Qed.
Print Assumptions C12_non_float_base_on_empty_tables.
Example C12_nonvacuous : has_rows (Simple colx) 4 /\ has_rows (Simple coly) 4 /\ has_rows (Joint [colz]) 4 /\
  ~ independent (uniform (seq 0 4)) (value_at (Simple colx)) (value_at (Simple coly)) /\
  cond_independent (uniform (seq 0 4)) (value_at (Simple colx)) (value_at (Simple coly)) (value_at (Joint [colx; coly])).
Proof.
  split; [reflexivity|]. split; [reflexivity|]. split; [split; [discriminate|repeat constructor]|].
  split.
  - intros H. specialize (H [0]%Z [0]%Z). unfold pr2, pr1, pr in H. simpl in H. lra.
  - intros x y z. unfold pr3, pr2, pr1. rewrite !pr_sum. cbn [uniform outcomes weight seq length].
    cbn [value_at colx coly insts map nth]. rewrite !SumOf_cons, !SumOf_nil.
    destruct (eqv [0; 0]%Z z) eqn:E1; [apply eqv_true in E1; subst z|].
    + change (eqv [0; 1]%Z [0; 0]%Z) with false. change (eqv [1; 1]%Z [0; 0]%Z) with false. destruct (eqv [0]%Z x), (eqv [0]%Z y); cbn [andb]; rewrite ?andb_false_r; simpl; lra.
    + destruct (eqv [0; 1]%Z z) eqn:E2; [apply eqv_true in E2; subst z|].
      * change (eqv [1; 1]%Z [0; 1]%Z) with false. destruct (eqv [0]%Z x), (eqv [1]%Z y); cbn [andb]; rewrite ?andb_false_r; simpl; lra.
      * destruct (eqv [1; 1]%Z z) eqn:E3; rewrite ?andb_true_r, ?andb_false_r; destruct (eqv [1]%Z x), (eqv [1]%Z y); cbn [andb]; simpl; lra.
Qed.
