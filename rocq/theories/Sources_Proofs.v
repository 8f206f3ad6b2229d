(** Lemmas for Sources_Properties.v. *)
From Coq Require Import String QArith Reals DecimalNat.
From Verif Require Import Base Matrix_Model Matrix_Spec BN_Model BN_Spec BN_Final_Proofs Sources_Model.
Open Scope nat_scope.

(** alphabetical order of strings: the first difference decides, a proper prefix comes first *)
Inductive before : text -> text -> Prop :=
| before_prefix c b : before [] (c :: b)
| before_first x y a b : x < y -> before (x :: a) (y :: b)
| before_rest x a b : before a b -> before (x :: a) (x :: b).

Lemma text_eqb_eq a b : text_eqb a b = true <-> a = b.
Proof.
  revert b; induction a as [|x a IH]; intros [|y b]; cbn [text_eqb]; split; intros H; try discriminate; try reflexivity.
  - apply andb_true_iff in H as [H1 H2]. apply Nat.eqb_eq in H1. apply IH in H2. congruence.
  - injection H as -> ->. rewrite Nat.eqb_refl. cbn [andb]. apply IH. reflexivity.
Qed.
Lemma text_leb_spec a b : text_leb a b = true <-> a = b \/ before a b.
Proof.
  revert b; induction a as [|x a IH]; intros [|y b]; cbn [text_leb]; split; intros H; try reflexivity; try discriminate.
  - left; reflexivity.
  - right; constructor.
  - destruct H as [H|H]; [discriminate|inversion H].
  - apply orb_true_iff in H as [H|H].
    + apply Nat.ltb_lt in H. right; constructor; assumption.
    + apply andb_true_iff in H as [H1 H2]. apply Nat.eqb_eq in H1. subst y. apply IH in H2 as [E|H2]; [left; congruence|right; constructor; assumption].
  - destruct H as [H|H].
    + injection H as -> ->. rewrite Nat.ltb_irrefl, Nat.eqb_refl. cbn. apply IH. left; reflexivity.
    + inversion H; subst.
      * match goal with L : _ < _ |- _ => apply Nat.ltb_lt in L; rewrite L end. reflexivity.
      * rewrite Nat.ltb_irrefl, Nat.eqb_refl. cbn. apply IH. right; assumption.
Qed.
Lemma text_leb_total a b : text_leb a b = false -> before b a.
Proof.
  revert b; induction a as [|x a IH]; intros [|y b] H; cbn [text_leb] in H; try discriminate; [constructor|].
  apply orb_false_iff in H as [H1 H2]. apply Nat.ltb_ge in H1. destruct (Nat.eqb_spec x y) as [-> |N]; [apply before_rest, IH; exact H2|apply before_first; lia].
Qed.
Lemma before_trans a b c : before a b -> before b c -> before a c.
Proof.
  intros H; revert c; induction H; intros c' H'; inversion H'; subst; first [apply before_prefix | apply before_first; lia | apply before_rest; auto].
Qed.
Lemma insert_text_perm x l : Permutation (x :: l) (insert_text x l).
Proof.
  induction l as [|y l IH]; cbn [insert_text]; [reflexivity|]. destruct (text_leb x y); [reflexivity|]. rewrite perm_swap. constructor. exact IH.
Qed.
Lemma sort_text_perm l : Permutation l (sort_text l).
Proof. induction l as [|x l IH]; cbn; [constructor|]. rewrite <- insert_text_perm. constructor. exact IH. Qed.
Lemma insert_text_sorted x l : ~ In x l -> StronglySorted before l -> StronglySorted before (insert_text x l).
Proof.
  intros N H; induction H as [|y l Hs IH Hf]; cbn [insert_text]; [repeat constructor|].
  destruct (text_leb x y) eqn:E.
  - apply text_leb_spec in E as [E|E]; [exfalso; apply N; left; congruence|]. constructor; [constructor; assumption|]. constructor; [assumption|].
    eapply Forall_impl; [|exact Hf]. intros z Hz. apply (before_trans x y z E Hz).
  - constructor; [apply IH; intros H; apply N; right; exact H|]. apply Forall_forall. intros z Hz.
    apply (Permutation_in _ (Permutation_sym (insert_text_perm x l))) in Hz as [<- |Hz]; [apply text_leb_total; exact E|]. rewrite Forall_forall in Hf. auto.
Qed.
Lemma sort_text_sorted l : NoDup l -> StronglySorted before (sort_text l).
Proof.
  induction 1 as [|x l N H IH]; cbn; [constructor|]. apply insert_text_sorted; [|exact IH]. intros Hin. apply N. apply (Permutation_in _ (Permutation_sym (sort_text_perm l)) Hin).
Qed.

(** row labels are distinct *)
Lemma digits_inj u v : digits u = digits v -> u = v.
Proof. revert v; induction u; intros [] H; cbn in H; try discriminate; try reflexivity; injection H as H; f_equal; auto. Qed.
Lemma row_label_inj i j : row_label i = row_label j -> i = j.
Proof. unfold row_label. intros H. injection H as H. apply digits_inj in H. apply DecimalNat.Unsigned.to_uint_inj; exact H. Qed.
Lemma row_labels_length n : length (row_labels n) = Z.to_nat n.
Proof. unfold row_labels. rewrite map_length, seq_length. reflexivity. Qed.
Lemma NoDup_map_inj {A B} (f : A -> B) l : (forall x y, f x = f y -> x = y) -> NoDup l -> NoDup (map f l).
Proof. intros Hf; induction 1 as [|x l N H IH]; cbn; constructor; [|exact IH]. intros Hin. apply in_map_iff in Hin as (y & E & Hy). apply Hf in E. congruence. Qed.
Lemma row_labels_NoDup n : NoDup (row_labels n).
Proof. apply NoDup_map_inj; [apply row_label_inj|apply seq_NoDup]. Qed.

(** columns of a matrix built from columns *)
Definition column (m : smat) (j : nat) : list Z := map (fun row => nth j row 0%Z) (sm_rows m).
Lemma map_nth_seq {A} (l : list A) d : map (fun i => nth i l d) (seq 0 (length l)) = l.
Proof.
  induction l as [|x l IH]; [reflexivity|]. cbn [length seq map nth]. f_equal. rewrite <- seq_shift, map_map. exact IH.
Qed.
Lemma column_of_columns f h cs j c : nth_error cs j = Some c -> length c = h -> column (SMat f (length cs) (rows_of_columns h cs)) j = c.
Proof.
  intros Hj Hc. unfold column, rows_of_columns. cbn [sm_rows]. rewrite map_map. transitivity (map (fun i => nth i c 0%Z) (seq 0 (length c))); [|apply map_nth_seq].
  rewrite Hc. apply map_ext. intros r. rewrite <- (nth_error_nth cs j [] Hj).
  rewrite (nth_indep _ 0%Z (nth r [] 0%Z)) by (rewrite map_length; apply nth_error_Some; congruence). apply (map_nth (fun c : list Z => nth r c 0%Z) cs []).
Qed.
Lemma rectangular_of_columns f h cs : rectangular (SMat f (length cs) (rows_of_columns h cs)) h (length cs).
Proof.
  unfold rectangular, rows_of_columns; cbn [sm_rows sm_ncols]. split; [rewrite map_length, seq_length; reflexivity|]. split; [reflexivity|].
  apply Forall_forall. intros row H. apply in_map_iff in H as (r & <- & _). apply map_length.
Qed.
Lemma column_entry m r j : r < length (sm_rows m) -> nth r (column m j) 0%Z = entry m r j.
Proof.
  intros Hr. unfold column, entry. rewrite (nth_indep _ 0%Z ((fun row => nth j row 0%Z) [])) by (rewrite map_length; exact Hr). apply (map_nth (fun row => nth j row 0%Z)).
Qed.

Lemma F2_length {A B} (P : A -> B -> Prop) l l' : Forall2 P l l' -> length l = length l'.
Proof. induction 1; cbn; congruence. Qed.

(** counting *)
Lemma count_occ_repeat_neq x y n : x <> y -> count_occ Z.eq_dec (repeat x n) y = 0.
Proof. intros N. induction n; cbn; [reflexivity|]. destruct (Z.eq_dec x y); [contradiction|]. exact IHn. Qed.
Lemma count_occ_repeat x n : count_occ Z.eq_dec (repeat x n) x = n.
Proof. induction n; cbn; [reflexivity|]. destruct (Z.eq_dec x x); [|contradiction]. f_equal; exact IHn. Qed.
Lemma count_occ_Permutation (l l' : list Z) x : Permutation l l' -> count_occ Z.eq_dec l x = count_occ Z.eq_dec l' x.
Proof. intros H; apply (Permutation_count_occ Z.eq_dec); exact H. Qed.

Lemma int_of_le q n : (0 <= q <= inject_Z n)%Q -> (0 <= int_of q <= n)%Z.
Proof.
  destruct q as [a b]. unfold Qle, int_of, inject_Z; cbn [Qnum Qden]. intros [H1 H2]. rewrite Z.quot_div_nonneg by lia. split; [apply Z.div_pos; lia|].
  apply Z.div_le_upper_bound; lia.
Qed.

Section Binary.
  Context {rng : Type} (seed : Z -> rng) (shuffle : rng -> list Z -> list Z * rng) (product : Z -> Q -> Q).
  Hypothesis Hshuffle : forall g l, Permutation l (fst (shuffle g l)).

  (** a 0/1 column of height n with k ones *)
  Definition binary_column (n k : nat) (c : list Z) : Prop :=
    length c = n /\ (forall x, In x c -> x = 0%Z \/ x = 1%Z) /\ count_occ Z.eq_dec c 1%Z = k.

  Lemma shuffled_column n p g : (0 <= int_of (product n p) <= n)%Z ->
    binary_column (Z.to_nat n) (Z.to_nat (int_of (product n p))) (fst (create_shuffled_binary_column shuffle product n p g)).
  Proof.
    intros H. unfold create_shuffled_binary_column. set (k := int_of (product n p)) in *. pose proof (Hshuffle g (py_repeat 1%Z k ++ py_repeat 0%Z (n - k))) as HP.
    set (c := fst _) in *. clearbody c. unfold py_repeat in HP. split; [|split].
    - rewrite <- (Permutation_length HP), app_length, !repeat_length. lia.
    - intros x Hx. apply (Permutation_in _ (Permutation_sym HP)) in Hx. apply in_app_or in Hx as [Hx|Hx]; apply repeat_spec in Hx; auto.
    - rewrite <- (count_occ_Permutation _ _ 1%Z HP), count_occ_app, count_occ_repeat, count_occ_repeat_neq by discriminate. lia.
  Qed.
  Lemma create_columns_ok n probs labels : forall g,
    (forall l, In l labels -> exists p, assoc text_eqb l probs = Some p) -> (forall l p, In (l, p) probs -> (0 <= int_of (product n p) <= n)%Z) ->
    exists cs g', create_columns shuffle product n probs labels g = (Ok cs, g') /\
      Forall2 (fun l c => exists p, In (l, p) probs /\ binary_column (Z.to_nat n) (Z.to_nat (int_of (product n p))) c) labels cs.
  Proof.
    induction labels as [|l labels IH]; intros g Hk Hp; cbn [create_columns]; [eexists _, _; split; [reflexivity|constructor]|].
    destruct (Hk l (or_introl eq_refl)) as (p & Ep). rewrite Ep.
    assert (Hin : In (l, p) probs).
    { clear -Ep. induction probs as [|[k q] ps IHp]; cbn [assoc] in Ep; [discriminate|]. destruct (text_eqb l k) eqn:E; [|right; auto].
      apply text_eqb_eq in E. injection Ep as ->. left; congruence. }
    pose proof (shuffled_column n p g (Hp l p Hin)) as Hc. destruct (create_shuffled_binary_column shuffle product n p g) as [c g1]. cbn [fst] in Hc.
    destruct (IH g1 (fun l' H => Hk l' (or_intror H)) Hp) as (cs & g' & E & HF). rewrite E. cbn [bind]. eexists _, _. split; [reflexivity|]. constructor; [|exact HF]. exists p. auto.
  Qed.
  Lemma hstack_ok n labels cs (P : text -> list Z -> Prop) : labels <> [] -> Forall2 P labels cs -> (forall l c, P l c -> length c = n) ->
    hstack_columns cs = Ok (SMat CSR (length cs) (rows_of_columns n cs)).
  Proof.
    intros Hne HF HP. assert (Hl : Forall (fun c => length c = n) cs) by (clear Hne; induction HF; constructor; eauto).
    destruct cs as [|c cs]; [inversion HF; congruence|]. unfold hstack_columns. inversion Hl as [|? ? Hc Hcs]; subst.
    assert (E : forallb (fun c' => length c' =? length c) (c :: cs) = true).
    { apply forallb_forall. intros c' Hin. apply Nat.eqb_eq. rewrite Forall_forall in Hl. auto. }
    rewrite E. reflexivity.
  Qed.
  Lemma assoc_In {V} (probs : list (text * V)) l : In l (map fst probs) -> exists p, assoc text_eqb l probs = Some p.
  Proof.
    induction probs as [|[k q] ps IH]; intros H; [destruct H|]. cbn [assoc]. destruct (text_eqb l k) eqn:E; [eauto|]. destruct H as [H|H]; [|auto].
    cbn in H. subst k. assert (text_eqb l l = true) by (apply text_eqb_eq; reflexivity). congruence.
  Qed.
  Lemma create_matrix_ok n probs g : probs <> [] -> (forall l p, In (l, p) probs -> (0 <= int_of (product n p) <= n)%Z) ->
    exists m g', create_random_binary_matrix shuffle product n probs g = (Ok (m, sort_text (map fst probs)), g') /\
      rectangular m (Z.to_nat n) (length probs) /\
      forall j l, nth_error (sort_text (map fst probs)) j = Some l -> exists p, In (l, p) probs /\ binary_column (Z.to_nat n) (Z.to_nat (int_of (product n p))) (column m j).
  Proof.
    intros Hne Hp. unfold create_random_binary_matrix. set (labels := sort_text (map fst probs)).
    assert (Hperm : Permutation (map fst probs) labels) by apply sort_text_perm.
    destruct (create_columns_ok n probs labels g) as (cs & g' & E & HF); [|exact Hp|].
    { intros l Hl. apply assoc_In. apply (Permutation_in _ (Permutation_sym Hperm) Hl). }
    rewrite E. cbn [bind]. assert (Hlen : length cs = length probs) by (rewrite <- (F2_length _ _ _ HF), <- (Permutation_length Hperm), map_length; reflexivity).
    assert (Hl : labels <> []) by (intros E0; rewrite E0 in Hperm; apply Permutation_sym, Permutation_nil in Hperm; destruct probs; [congruence|discriminate]).
    rewrite (hstack_ok (Z.to_nat n) labels cs _ Hl HF) by (intros l c (p & _ & H & _); exact H). cbn [bind].
    eexists _, _. split; [reflexivity|]. split; [rewrite <- Hlen; apply rectangular_of_columns|]. intros j l Hj.
    assert (G : exists c, nth_error cs j = Some c /\ exists p, In (l, p) probs /\ binary_column (Z.to_nat n) (Z.to_nat (int_of (product n p))) c).
    { clear -HF Hj. revert j Hj. induction HF as [|l0 c0 ls cs' H HF IH]; intros [|j] Hj; cbn in *; try discriminate; [injection Hj as ->; eauto|auto]. }
    destruct G as (c & Ec & p & Hin & Hc). exists p. split; [exact Hin|]. rewrite (column_of_columns CSR (Z.to_nat n) cs j c Ec); [exact Hc|apply Hc].
  Qed.
End Binary.
