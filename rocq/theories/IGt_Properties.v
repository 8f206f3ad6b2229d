(** C35: ranking of features by information gain. *)
From Coq Require Import Reals Lra.
From Verif Require Import Base Key_Model PMF_Model PMF_Spec Prob_Spec Info_Spec Prob_Proofs Info_Proofs PMF_Proofs PMF_Data_Proofs PMF_Properties
  Matrix_Model Matrix_Spec Matrix_Proofs Select_Properties IGt_Model.
Open Scope nat_scope.

(** ** Specification *)
(** information gain in bits of feature [f] about objective [o], each of the [n] rows equally likely *)
Definition gain (d : dmatrix) (o f : nat) : R :=
  (mi (uniform (seq 0 (length (dm_row_labels d)))) (fun r => [entry (dm_X d) r f]) (fun r => [entry (dm_Y d) r o]) / ln 2)%R.
(** [f] ranks before [g] *)
Definition before (G : nat -> R) (f g : nat) : Prop := (G g < G f)%R \/ (G f = G g /\ f < g).
(** [sel] lists the [k] best of the features 0 .. m-1 in order of rank *)
Definition top (G : nat -> R) (m k : nat) (sel : list nat) : Prop :=
  length sel = Nat.min k m /\ NoDup sel /\ (forall f, In f sel -> f < m) /\
  (forall i j f g, i < j -> nth_error sel i = Some f -> nth_error sel j = Some g -> before G f g) /\
  (forall f g, In f sel -> g < m -> ~ In g sel -> before G f g).
(** how many are asked for: a negative Q counts from the end, as slices do *)
Definition asked (Q : Z) (m : nat) : nat := if (Q <? 0)%Z then Z.to_nat (Z.of_nat m + Q) else Z.to_nat Q.

(** ** Sorting *)
Definition bef (x y : nat * R) : Prop := (snd y < snd x)%R \/ (snd x = snd y /\ fst x < fst y).
Lemma insert_desc_perm x l : Permutation (x :: l) (insert_desc x l).
Proof.
  induction l as [|y l IH]; cbn [insert_desc]; [reflexivity|]. destruct (Rle_dec (snd y) (snd x)); [reflexivity|].
  rewrite perm_swap. constructor. exact IH.
Qed.
Lemma sorted_desc_perm l : Permutation l (sorted_desc l).
Proof. induction l as [|x l IH]; [reflexivity|]. cbn [sorted_desc fold_right]. rewrite <- insert_desc_perm. constructor. exact IH. Qed.
Lemma insert_sorted x l : StronglySorted bef l -> (forall y, In y l -> fst x < fst y) -> StronglySorted bef (insert_desc x l).
Proof.
  induction 1 as [|y l HS IH HF]; intros Hx; cbn [insert_desc]; [repeat constructor|]. destruct (Rle_dec (snd y) (snd x)) as [L|L].
  - assert (Hxy : bef x y) by (unfold bef; pose proof (Hx y (or_introl eq_refl)); destruct (Req_dec (snd x) (snd y)); [right; auto|left; lra]).
    constructor; [constructor; assumption|]. constructor; [exact Hxy|]. rewrite Forall_forall in HF |- *. intros z Hz. specialize (HF z Hz). pose proof (Hx z (or_intror Hz)). unfold bef in *.
    destruct HF as [H1|(H1 & _)]; [left; lra|]. destruct (Req_dec (snd x) (snd z)); [right; auto|left; lra].
  - constructor; [apply IH; intros z Hz; apply Hx; right; exact Hz|]. rewrite Forall_forall in HF |- *. intros z Hz. apply (Permutation_in _ (Permutation_sym (insert_desc_perm x l))) in Hz.
    destruct Hz as [<- |Hz]; [left; lra|auto].
Qed.
Lemma sorted_desc_sorted (G : nat -> R) m : forall a, StronglySorted bef (sorted_desc (map (fun f => (f, G f)) (seq a m))).
Proof.
  induction m as [|m IH]; intros a; cbn [seq map sorted_desc fold_right]; [constructor|]. apply insert_sorted; [apply IH|].
  intros y Hy. apply (Permutation_in _ (Permutation_sym (sorted_desc_perm _))) in Hy. apply in_map_iff in Hy as (f & <- & Hf). apply in_seq in Hf. cbn. lia.
Qed.
Lemma sorted_nth (l : list (nat * R)) : StronglySorted bef l -> forall i j x y, i < j -> nth_error l i = Some x -> nth_error l j = Some y -> bef x y.
Proof.
  induction 1 as [|z l HS IH HF]; intros i j x y Hij Hi Hj; [destruct i; discriminate|]. destruct j as [|j]; [lia|]. cbn in Hj. destruct i as [|i].
  - injection Hi as <-. rewrite Forall_forall in HF. apply HF. eapply nth_error_In; eauto.
  - apply (IH i j); [lia|exact Hi|exact Hj].
Qed.
Lemma nth_error_firstn {A} (l : list A) k i x : nth_error (firstn k l) i = Some x -> nth_error l i = Some x /\ i < k.
Proof.
  revert k i; induction l as [|y l IH]; intros [|k] [|i] H; cbn in H |- *; try discriminate; [split; [exact H|lia]|]. apply IH in H. split; [tauto|lia].
Qed.
Theorem best_top (G : nat -> R) m Q : top G m (asked Q m) (best Q (map (fun f => (f, G f)) (seq 0 m))).
Proof.
  set (P := map (fun f => (f, G f)) (seq 0 m)). assert (HL : length (sorted_desc P) = m) by (rewrite <- (Permutation_length (sorted_desc_perm P)); unfold P; rewrite map_length, seq_length; reflexivity).
  assert (Eb : best Q P = map fst (firstn (asked Q m) (sorted_desc P))) by (unfold best, slice_to, asked; rewrite HL; destruct (Q <? 0)%Z; reflexivity).
  rewrite Eb. set (k := asked Q m). clearbody k.
  assert (HS := sorted_desc_sorted G m 0). fold P in HS.
  assert (HP : forall x, In x (sorted_desc P) <-> fst x < m /\ snd x = G (fst x)).
  { intros x. split.
    - intros H. apply (Permutation_in _ (Permutation_sym (sorted_desc_perm P))) in H. apply in_map_iff in H as (f & <- & Hf). apply in_seq in Hf. cbn. split; [lia|reflexivity].
    - intros (H1 & H2). apply (Permutation_in _ (sorted_desc_perm P)). apply in_map_iff. exists (fst x). split; [destruct x; cbn in *; congruence|apply in_seq; lia]. }
  assert (HB : forall x y, In x (sorted_desc P) -> In y (sorted_desc P) -> bef x y -> before G (fst x) (fst y)).
  { intros x y Hx Hy H. apply HP in Hx as (_ & Ex), Hy as (_ & Ey). unfold bef in H. rewrite Ex, Ey in H. exact H. }
  assert (HND : NoDup (map fst (sorted_desc P))).
  { apply (Permutation_NoDup (Permutation_map fst (sorted_desc_perm P))). unfold P. rewrite map_map. cbn [fst]. rewrite map_id. apply seq_NoDup. }
  split; [|split; [|split; [|split]]].
  - rewrite map_length, firstn_length, HL. reflexivity.
  - rewrite <- (firstn_skipn k (sorted_desc P)), map_app in HND. clear -HND. induction (map fst (firstn k (sorted_desc P))) as [|x l IH]; [constructor|]. cbn in HND. inversion HND as [|? ? N H]; subst. constructor; [intros Hin; apply N, in_or_app; left; exact Hin|auto].
  - intros f Hf. apply in_map_iff in Hf as (x & <- & Hx). assert (Hx' : In x (sorted_desc P)) by (rewrite <- (firstn_skipn k (sorted_desc P)); apply in_or_app; left; exact Hx). apply HP in Hx'. tauto.
  - intros i j f g Hij Hi Hj. rewrite nth_error_map in Hi, Hj. destruct (nth_error (firstn k (sorted_desc P)) i) as [x|] eqn:Ei; [|discriminate]. destruct (nth_error (firstn k (sorted_desc P)) j) as [y|] eqn:Ej; [|discriminate].
    injection Hi as <-. injection Hj as <-. apply nth_error_firstn in Ei as (Ei & _), Ej as (Ej & _). apply HB; [eapply nth_error_In; eauto|eapply nth_error_In; eauto|]. eapply sorted_nth; eauto.
  - intros f g Hf Hg Hng. apply in_map_iff in Hf as (x & <- & Hx). apply In_nth_error in Hx as (i & Hi). apply nth_error_firstn in Hi as (Hi & Hik).
    assert (Hy : In (g, G g) (sorted_desc P)) by (apply HP; cbn; auto). apply In_nth_error in Hy as (j & Hj).
    destruct (Nat.lt_ge_cases j k) as [Hjk|Hjk].
    + exfalso. apply Hng. apply in_map_iff. exists (g, G g). split; [reflexivity|]. rewrite <- (firstn_skipn k (sorted_desc P)) in Hj. rewrite nth_error_app1 in Hj by (rewrite firstn_length; apply Nat.min_glb_lt; [exact Hjk|]; apply nth_error_Some; rewrite firstn_skipn in Hj; congruence).
      eapply nth_error_In; eauto.
    + change g with (fst (g, G g)). apply HB; [eapply nth_error_In; eauto|eapply nth_error_In; eauto|]. apply (sorted_nth _ HS i j); [lia|exact Hi|exact Hj].
Qed.

(** ** The generic algorithm *)
Lemma matrix_variable_ok m labels nr c : rectangular m nr (length labels) -> c < length labels ->
  matrix_variable m labels (Z.of_nat c) = Ok {| vid := Z.of_nat c; insts := column_of m nr c; array := true; lazy := true |}.
Proof.
  intros HR Hc. unfold matrix_variable, py_get. assert (E : py_index (length labels) (Z.of_nat c) = Ok c) by (apply py_index_means; split; [exact Hc|left; reflexivity]). rewrite E. cbn [bind].
  destruct (nth_error labels c) eqn:En; [|apply nth_error_None in En; lia]. cbn [of_option bind]. rewrite (get_column_ok m nr _ c HR Hc). reflexivity.
Qed.
Lemma mi_ext {A} (S : space A) X Y X' Y' : (forall a, In a (outcomes S) -> X a = X' a /\ Y a = Y' a) -> mi S X Y = mi S X' Y'.
Proof.
  intros H. unfold mi. apply (SumOf_ext (fun a => weight S a * ln (pr2 S X (X a) Y (Y a) / (pr1 S X (X a) * pr1 S Y (Y a))))%R). intros a Ha. destruct (H a Ha) as (-> & ->).
  assert (E1 : forall v, pr1 S X v = pr1 S X' v) by (intros v; apply pr_ext; intros b Hb; rewrite (proj1 (H b Hb)); reflexivity).
  assert (E2 : forall v, pr1 S Y v = pr1 S Y' v) by (intros v; apply pr_ext; intros b Hb; rewrite (proj2 (H b Hb)); reflexivity).
  assert (E3 : forall v w, pr2 S X v Y w = pr2 S X' v Y' w) by (intros v w; apply pr_ext; intros b Hb; destruct (H b Hb) as (-> & ->); reflexivity).
  rewrite E1, E2, E3. reflexivity.
Qed.
Lemma column_of_nth m n c r : r < n -> nth r (column_of m n c) 0%Z = entry m r c.
Proof.
  intros H. unfold column_of. rewrite (nth_indep _ 0%Z (entry m 0 c)) by (rewrite map_length, seq_length; exact H). rewrite (map_nth (fun r => entry m r c)). rewrite seq_nth by exact H. reflexivity.
Qed.
Lemma feature_IG_ok d o f : aligned d -> o < length (dm_labels_Y d) -> f < length (dm_labels_X d) ->
  feature_IG d {| vid := Z.of_nat o; insts := column_of (dm_Y d) (length (dm_row_labels d)) o; array := true; lazy := true |} f = Ok (gain d o f).
Proof.
  intros (HX & HY) Ho Hf. unfold feature_IG. rewrite (matrix_variable_ok _ _ _ f HX Hf). cbn [bind]. set (n := length (dm_row_labels d)) in *.
  destruct (Nat.eq_dec n 0) as [E0|N0].
  { unfold column_of, gain. fold n. rewrite E0. cbn. f_equal. unfold mi. cbn. unfold Rdiv. rewrite Rmult_0_l. reflexivity. }
  assert (Hn : 0 < n) by lia.
  set (VX := Simple {| vid := Z.of_nat f; insts := column_of (dm_X d) n f; array := true; lazy := true |}).
  set (VY := Simple {| vid := Z.of_nat o; insts := column_of (dm_Y d) n o; array := true; lazy := true |}).
  destruct (C12_mi_from_data VX VY n Base2) as (PXY & PX & PY & E1 & E2); [cbn; unfold column_of; rewrite map_length, seq_length; reflexivity|cbn; unfold column_of; rewrite map_length, seq_length; reflexivity|exact Hn|discriminate|discriminate|exact Logic.I|].
  rewrite E1. cbn [bind]. rewrite E2. f_equal. unfold gain. fold n. unfold Rdiv. cbn [base_factor]. f_equal. apply mi_ext. intros r Hr. cbn [uniform outcomes] in Hr. apply in_seq in Hr.
  cbn [VX VY value_at insts]. rewrite !column_of_nth by lia. split; reflexivity.
Qed.
Theorem C35_IGt_selects_the_best : forall d Q o, aligned d -> o < length (dm_labels_Y d) ->
  exists sel, IGt d Q (Z.of_nat o) = Ok sel /\ top (gain d o) (length (dm_labels_X d)) (asked Q (length (dm_labels_X d))) sel.
Proof.
  intros d Q o HA Ho. pose proof HA as (HX & HY). unfold IGt. rewrite (matrix_variable_ok _ _ _ o HY Ho). cbn [bind]. pose proof HX as (_ & Ec & _). rewrite Ec.
  rewrite (mapM_ok _ (fun f => (f, gain d o f))).
  - cbn [bind]. eexists. split; [reflexivity|]. apply best_top.
  - intros f Hf. apply in_seq in Hf. rewrite (feature_IG_ok d o f HA Ho) by lia. reflexivity.
Qed.
Print Assumptions C35_IGt_selects_the_best.
(** consequence: the usual case 0 <= Q *)
Theorem C35_number_selected : forall d Q o sel, aligned d -> o < length (dm_labels_Y d) -> IGt d (Z.of_nat Q) (Z.of_nat o) = Ok sel ->
  length sel = Nat.min Q (length (dm_labels_X d)).
Proof.
  intros d Q o sel HA Ho E. destruct (C35_IGt_selects_the_best d (Z.of_nat Q) o HA Ho) as (s & E' & (HL & _)). rewrite E in E'. injection E' as <-. rewrite HL. unfold asked.
  destruct (Z.ltb_spec (Z.of_nat Q) 0); [lia|]. rewrite Nat2Z.id. reflexivity.
Qed.
(** the selection is determined: any list of the best features in order of rank is the result *)
Theorem C35_selection_unique : forall G m k s s', top G m k s -> top G m k s' -> s = s'.
Proof.
  assert (Hirr : forall G f, ~ before G f f) by (intros G f [H|(_ & H)]; [lra|lia]).
  assert (Hasym : forall G f g, before G f g -> before G g f -> False) by (intros G f g [H|(E & H)] [H'|(E' & H')]; try lra; try lia).
  intros G m k s s' (L & N & I & O & B) (L' & N' & I' & O' & B').
  assert (HL : length s = length s') by congruence.
  (* same elements *)
  assert (Hin : forall f, In f s -> In f s').
  { intros f Hf. destruct (in_dec Nat.eq_dec f s') as [Hin|Hnin]; [exact Hin|exfalso].
    assert (Hex : exists g, In g s' /\ ~ In g s).
    { assert (Hnn : ~ forall g, In g s' -> In g s).
      { intros Hall. assert (Hinc : incl s s'); [|apply Hnin, Hinc, Hf]. apply NoDup_length_incl; [exact N'|lia|exact Hall]. }
      clear -Hnn. induction s' as [|g s' IH]; [exfalso; apply Hnn; intros g []|]. destruct (in_dec Nat.eq_dec g s) as [Hg|Hg].
      - destruct IH as (h & Hh & Hh'); [intros Hall; apply Hnn; intros h [<- |Hh]; auto|]. exists h. split; [right; exact Hh|exact Hh'].
      - exists g. split; [left; reflexivity|exact Hg]. }
    destruct Hex as (g & Hg & Hgn). apply (Hasym G f g); [apply B; auto|apply B'; auto]. }
  assert (Hin' : forall f, In f s' -> In f s) by (apply NoDup_length_incl; [exact N|lia|exact Hin]).
  clear B B' L L' I I'. revert s' HL N' O' Hin Hin'. induction s as [|f s IH]; intros [|f' s'] HL N' O' Hin Hin'; cbn in HL; try discriminate; [reflexivity|].
  assert (Ef : f = f').
  { destruct (Nat.eq_dec f f') as [E|Ne]; [exact E|exfalso]. assert (H1 : In f s') by (destruct (Hin f (or_introl eq_refl)); [congruence|assumption]). assert (H2 : In f' s) by (destruct (Hin' f' (or_introl eq_refl)); [congruence|assumption]).
    apply In_nth_error in H1 as (j & Hj), H2 as (i & Hi). apply (Hasym G f f'); [apply (O 0 (S i) f f'); [lia|reflexivity|exact Hi]|apply (O' 0 (S j) f' f); [lia|reflexivity|exact Hj]]. }
  subst f'. f_equal. inversion N as [|? ? Nf N1]; inversion N' as [|? ? Nf' N1']; subst. apply IH; [exact N1| |lia|exact N1'| | |].
  - intros i j g h Hij Hi Hj. apply (O (S i) (S j)); [lia|exact Hi|exact Hj].
  - intros i j g h Hij Hi Hj. apply (O' (S i) (S j)); [lia|exact Hi|exact Hj].
  - intros g Hg. destruct (Hin g (or_intror Hg)) as [<- |H]; [contradiction|exact H].
  - intros g Hg. destruct (Hin' g (or_intror Hg)) as [<- |H]; [contradiction|exact H].
Qed.
(** ** The binary specialisation *)
Open Scope R_scope.
Definition bit (b : bool) : Z := if b then 1%Z else 0%Z.
Definition is_bit (z : Z) : Prop := z = 0%Z \/ z = 1%Z.
Lemma bit_eqv z b : is_bit z -> eqv [z] [bit b] = Bool.eqb (truthy z) b.
Proof. intros [-> | ->]; destruct b; reflexivity. Qed.
Lemma ones_sum c (col : nat -> Z) l : (forall r, In r l -> is_bit (col r)) ->
  IZR (zsum (map col l)) * c = SumOf (fun r => if eqv [col r] [1%Z] then c else 0) l.
Proof.
  induction l as [|r l IH]; intros H; [rewrite SumOf_nil; cbn; lra|]. cbn [map zsum]. rewrite SumOf_cons, plus_IZR, Rmult_plus_distr_r, IH by (intros; apply H; right; assumption).
  destruct (H r (or_introl eq_refl)) as [-> | ->]; cbn; lra.
Qed.
Lemma zeros_sum c (col : nat -> Z) l : (forall r, In r l -> is_bit (col r)) ->
  INR (length l) * c - IZR (zsum (map col l)) * c = SumOf (fun r => if eqv [col r] [0%Z] then c else 0) l.
Proof.
  induction l as [|r l IH]; intros H; [rewrite SumOf_nil; cbn; lra|]. cbn [map zsum length]. rewrite SumOf_cons, plus_IZR, S_INR, <- IH by (intros; apply H; right; assumption).
  destruct (H r (or_introl eq_refl)) as [-> | ->]; cbn; lra.
Qed.
Lemma pairs_sum c (cx cy : nat -> Z) x y l : (forall r, In r l -> is_bit (cx r) /\ is_bit (cy r)) ->
  INR (length (filter (fun v => Bool.eqb (truthy (fst v)) x && Bool.eqb (truthy (snd v)) y) (combine (map cx l) (map cy l)))) * c
  = SumOf (fun r => if eqv [cx r] [bit x] && eqv [cy r] [bit y] then c else 0) l.
Proof.
  induction l as [|r l IH]; intros H; [rewrite SumOf_nil; cbn; lra|]. cbn [map combine]. rewrite SumOf_cons, <- IH by (intros; apply H; right; assumption).
  destruct (H r (or_introl eq_refl)) as (Hx & Hy). rewrite (bit_eqv _ x Hx), (bit_eqv _ y Hy). cbn [filter fst snd]. destruct (_ && _); cbn [length]; [rewrite S_INR|]; lra.
Qed.
Section Binary.
  Variables (n : nat) (cx cy : nat -> Z).
  Hypothesis Hn : (0 < n)%nat.
  Hypothesis Hb : forall r, (r < n)%nat -> is_bit (cx r) /\ is_bit (cy r).
  Let S := uniform (seq 0 n).
  Let X := fun r => [cx r]. Let Y := fun r => [cy r].
  Lemma bits_in r : In r (seq 0 n) -> is_bit (cx r) /\ is_bit (cy r).
  Proof. intros H. apply Hb. apply in_seq in H. lia. Qed.
  Lemma INRn : INR n <> 0. Proof. apply not_0_INR. lia. Qed.
  Lemma space_ok : is_probability S.
  Proof. apply uniform_probability. destruct n; [lia|discriminate]. Qed.
  Lemma pmf_binary_ok (c : nat -> Z) b : (forall r, In r (seq 0 n) -> is_bit (c r)) -> pmf_binary (map c (seq 0 n)) b = pr1 S (fun r => [c r]) [bit b].
  Proof.
    intros Hc. unfold pr1. rewrite pr_sum. unfold S, uniform. cbn [outcomes weight]. rewrite seq_length. unfold pmf_binary. rewrite map_length, seq_length. unfold Rdiv. destruct b; cbn [bit].
    - apply ones_sum. exact Hc.
    - rewrite <- zeros_sum by exact Hc. rewrite seq_length. rewrite Rinv_r by apply INRn. reflexivity.
  Qed.
  Lemma joint_binary_ok x y : joint_binary (map cx (seq 0 n)) (map cy (seq 0 n)) x y = pr2 S X [bit x] Y [bit y].
  Proof.
    unfold pr2. rewrite pr_sum. unfold S, uniform. cbn [outcomes weight]. rewrite seq_length. unfold joint_binary. rewrite map_length, seq_length. apply (pairs_sum (/ INR n) cx cy). exact bits_in.
  Qed.
  Definition term (x y : bool) : R := pr2 S X [bit x] Y [bit y] * ln (pr2 S X [bit x] Y [bit y] / (pr1 S X [bit x] * pr1 S Y [bit y])).
  Lemma mi_four : mi S X Y = term false false + term false true + term true false + term true true.
  Proof.
    set (L := fun x y => ln (pr2 S X [bit x] Y [bit y] / (pr1 S X [bit x] * pr1 S Y [bit y]))).
    assert (Ht : forall x y, term x y = SumOf (fun r => (if eqv [cx r] [bit x] && eqv [cy r] [bit y] then weight S r else 0) * L x y) (outcomes S)).
    { intros x y. rewrite (SumOf_scal_r (L x y)). unfold term. fold (L x y). f_equal. unfold pr2. rewrite pr_sum. reflexivity. }
    rewrite !Ht, <- !SumOf_plus. unfold mi. apply SumOf_ext. intros r Hr. destruct (bits_in r Hr) as (Hx & Hy).
    rewrite (bit_eqv _ false Hx), (bit_eqv _ true Hx), (bit_eqv _ false Hy), (bit_eqv _ true Hy). unfold L, X, Y. destruct Hx as [-> | ->], Hy as [-> | ->]; cbn; lra.
  Qed.
  Theorem MI_binary_ok : MI_binary (map cx (seq 0 n)) (map cy (seq 0 n)) = Ok (mi S X Y / ln 2).
  Proof.
    unfold MI_binary. rewrite map_length, seq_length. destruct (Nat.eqb_spec n 0) as [E|_]; [lia|].
    assert (Hp : forall x y, (if is_zero (joint_binary (map cx (seq 0 n)) (map cy (seq 0 n)) x y) || is_zero (pmf_binary (map cx (seq 0 n)) x * pmf_binary (map cy (seq 0 n)) y) then Ok 0
      else l <- log_fun Base2 (joint_binary (map cx (seq 0 n)) (map cy (seq 0 n)) x y / (pmf_binary (map cx (seq 0 n)) x * pmf_binary (map cy (seq 0 n)) y)) ;; Ok (joint_binary (map cx (seq 0 n)) (map cy (seq 0 n)) x y * l)) = Ok (term x y / ln 2)).
    { intros x y. rewrite joint_binary_ok, (pmf_binary_ok cx x), (pmf_binary_ok cy y) by (intros r Hr; apply bits_in; exact Hr). fold X Y.
      assert (H0 : 0 <= pr2 S X [bit x] Y [bit y]) by (apply pr_nonneg; apply (proj1 space_ok)).
      assert (HX : pr2 S X [bit x] Y [bit y] <= pr1 S X [bit x]) by (apply pr_le; [apply (proj1 space_ok)|intros a _ E; apply andb_true_iff in E; tauto]).
      assert (HY : pr2 S X [bit x] Y [bit y] <= pr1 S Y [bit y]) by (apply pr_le; [apply (proj1 space_ok)|intros a _ E; apply andb_true_iff in E; tauto]).
      unfold term. set (q := pr2 S X [bit x] Y [bit y]) in *. set (a := pr1 S X [bit x]) in *. set (b := pr1 S Y [bit y]) in *. clearbody q a b. unfold is_zero. destruct (Req_EM_T q 0) as [Eq|Nq]; cbn [orb].
      - rewrite Eq. f_equal. unfold Rdiv. rewrite !Rmult_0_l. reflexivity.
      - assert (0 < a) by lra. assert (0 < b) by lra. assert (0 < a * b) by (apply Rmult_lt_0_compat; lra). destruct (Req_EM_T (a * b) 0) as [E|_]; [lra|].
        rewrite (log_fun_ok Base2 (q / (a * b)) Logic.I) by (apply Rdiv_lt_0_compat; lra). cbn [bind base_factor]. f_equal. unfold Rdiv. lra. }
    cbv zeta. rewrite (Hp false false). cbn [bind]. rewrite (Hp false true). cbn [bind]. rewrite (Hp true false). cbn [bind]. rewrite (Hp true true). cbn [bind]. f_equal. rewrite mi_four. unfold Rdiv. lra.
  Qed.
End Binary.
Open Scope nat_scope.
(** On 0/1 data the binary variant selects exactly what the generic algorithm selects. *)
Definition binary_matrix (m : smat) (nr nc : nat) : Prop := forall r c, r < nr -> c < nc -> entry m r c = 0%Z \/ entry m r c = 1%Z.
Theorem C35_binary_variant_agrees : forall d Q o, aligned d -> 0 < length (dm_row_labels d) -> o < length (dm_labels_Y d) ->
  binary_matrix (dm_X d) (length (dm_row_labels d)) (length (dm_labels_X d)) -> binary_matrix (dm_Y d) (length (dm_row_labels d)) (length (dm_labels_Y d)) ->
  exists sel, IGt_binary d Q (Z.of_nat o) = Ok sel /\ IGt d Q (Z.of_nat o) = Ok sel.
Proof.
  intros d Q o HA Hn Ho BX BY. pose proof HA as (HX & HY). pose proof HX as (_ & Ec & _). unfold IGt_binary, IGt. rewrite (matrix_variable_ok _ _ _ o HY Ho), (get_column_ok _ _ _ o HY Ho). cbn [bind]. rewrite Ec.
  rewrite (mapM_ok _ (fun f => (f, gain d o f))); [rewrite (mapM_ok _ (fun f => (f, gain d o f)))|].
  - cbn [bind]. eauto.
  - intros f Hf. apply in_seq in Hf. rewrite (feature_IG_ok d o f HA Ho) by lia. reflexivity.
  - intros f Hf. apply in_seq in Hf. assert (Hf' : f < length (dm_labels_X d)) by lia. rewrite (get_column_ok _ _ _ f HX Hf'). cbn [bind]. unfold column_of.
    rewrite (MI_binary_ok (length (dm_row_labels d)) (fun r => entry (dm_X d) r f) (fun r => entry (dm_Y d) r o)); [reflexivity|exact Hn|]. intros r Hr. split; [apply BX|apply BY]; assumption.
Qed.
Theorem C35_MI_binary : forall d f o, aligned d -> 0 < length (dm_row_labels d) -> o < length (dm_labels_Y d) -> f < length (dm_labels_X d) ->
  binary_matrix (dm_X d) (length (dm_row_labels d)) (length (dm_labels_X d)) -> binary_matrix (dm_Y d) (length (dm_row_labels d)) (length (dm_labels_Y d)) ->
  exists X Y, get_column (dm_X d) (Z.of_nat f) = Ok X /\ get_column (dm_Y d) (Z.of_nat o) = Ok Y /\ MI_binary X Y = Ok (gain d o f).
Proof.
  intros d f o (HX & HY) Hn Ho Hf BX BY. rewrite (get_column_ok _ _ _ f HX Hf), (get_column_ok _ _ _ o HY Ho). eexists _, _. split; [reflexivity|]. split; [reflexivity|]. unfold column_of.
  apply (MI_binary_ok (length (dm_row_labels d)) (fun r => entry (dm_X d) r f) (fun r => entry (dm_Y d) r o) Hn). intros r Hr. split; [apply BX|apply BY]; assumption.
Qed.
(** The binary variant relies on 0/1 values: with other values the marginal "probabilities" leave [0, 1]. *)
Theorem C35_binary_needs_binary_data_refuted : pmf_binary [2; 2]%Z true = 2%R.
Proof. unfold pmf_binary. cbn. lra. Qed.

(** the first feature is a copy of the objective, the second a constant *)
Definition example : dmatrix :=
  DMat String.EmptyString (SMat CSC 2 [[0; 1]; [1; 1]; [0; 1]; [1; 1]]%Z) (SMat CSC 1 [[0]; [1]; [0]; [1]]%Z) [[]; []; []; []] [[]; []] [[]] true.
Example C35_nonvacuous : aligned example /\ binary_matrix (dm_X example) 4 2 /\ binary_matrix (dm_Y example) 4 1 /\ before (gain example 0) 0 1 /\
  IGt example 1 0 = Ok [0].
Proof.
  assert (HA : aligned example) by (repeat split; repeat constructor).
  assert (HB : before (gain example 0) 0 1).
  { left. unfold gain. cbn [example dm_row_labels length]. set (S := uniform (seq 0 4)). assert (HS : is_probability S) by (apply uniform_probability; discriminate).
    assert (Hl : (0 < / ln 2)%R) by (apply Rinv_0_lt_compat; rewrite <- ln_1; apply ln_increasing; lra).
    unfold Rdiv. apply Rmult_lt_compat_r; [exact Hl|].
    match goal with |- (mi S ?a ?b < mi S ?c ?d)%R => destruct (C12_information_inequalities nat S a b b HS) as (_ & _ & _ & _ & _ & HI1); destruct (C12_information_inequalities nat S c d d HS) as (_ & _ & _ & HP & _ & HI2); set (m1 := mi S a b) in *; set (m2 := mi S c d) in * end.
    rewrite (proj2 HI1).
    - destruct HP as [HP|HP]; [exact HP|exfalso]. symmetry in HP. apply HI2 in HP. specialize (HP [0%Z] [1%Z]). unfold pr2, pr1, pr in HP. cbn in HP. lra.
    - intros x y. unfold pr2, pr1, pr. cbn. unfold eqv. destruct (list_eq_dec Z.eq_dec [1%Z] x), (list_eq_dec Z.eq_dec [0%Z] y), (list_eq_dec Z.eq_dec [1%Z] y); cbn; try lra; subst; try discriminate. }
  split; [exact HA|]. split; [|split; [|split; [exact HB|]]].
  - intros r c Hr Hc. assert (Hr' : In r [0; 1; 2; 3]) by (cbn; lia). assert (Hc' : In c [0; 1]) by (cbn; lia). cbn in Hr', Hc'. intuition subst; cbn; auto.
  - intros r c Hr Hc. assert (Hr' : In r [0; 1; 2; 3]) by (cbn; lia). assert (Hc' : In c [0]) by (cbn; lia). cbn in Hr', Hc'. intuition subst; cbn; auto.
  - destruct (C35_IGt_selects_the_best example 1 0 HA) as (sel & E & HT); [cbn; lia|]. change (Z.of_nat 0) with 0%Z in E. rewrite E. f_equal. apply (C35_selection_unique _ _ _ _ _ HT). cbn [asked dm_labels_X example length].
    split; [reflexivity|]. split; [repeat constructor; intros []|]. split; [intros f [<- |[]]; cbn; lia|]. split.
    + intros i j f g Hij Hi Hj. destruct j as [|[|j]]; cbn in Hj; [lia|discriminate|discriminate].
    + intros f g [<- |[]] Hg Hng. assert (g = 1) by (destruct g as [|[|g]]; [exfalso; apply Hng; left; reflexivity|reflexivity|cbn in Hg; lia]). subst g. exact HB.
Qed.
