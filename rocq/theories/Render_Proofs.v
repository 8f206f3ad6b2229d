(** Lemmas about padding, splitting and decimal notation. *)
From Coq Require Import Reals Lra String.
From Verif Require Import Base Matrix_Model Sources_Model Select_Properties GTest_Model CIResult_Model CIResult_Properties Render_Model Render_Spec.
Open Scope nat_scope.
Set Warnings "-abstract-large-number".

(** ** Splitting *)
Lemma split_at (c : nat) (a b u v : text) : ~ In c a -> ~ In c b -> (a ++ c :: u = b ++ c :: v)%list -> a = b /\ u = v.
Proof.
  revert b. induction a as [|x a IH]; intros b Ha Hb E; destruct b as [|y b]; cbn in E.
  - injection E as ->. auto.
  - injection E as -> _. exfalso. apply Hb. left. reflexivity.
  - injection E as -> _. exfalso. apply Ha. left. reflexivity.
  - injection E as -> E. destruct (IH b) as (-> & ->); auto; intros H; [apply Ha|apply Hb]; right; exact H.
Qed.
Lemma split_at2 (s c : nat) (a b u v : text) : ~ In c a -> ~ In c b -> c <> s -> c <> s -> (a ++ s :: c :: u = b ++ s :: c :: v)%list -> a = b /\ u = v.
Proof.
  intros Ha Hb N _ E. change (s :: c :: u) with ([s] ++ c :: u)%list in E. change (s :: c :: v) with ([s] ++ c :: v)%list in E. rewrite !app_assoc in E.
  apply split_at in E as [E ->]; [apply app_inj_tail in E as [-> _]; auto| |]; intros H; apply in_app_or in H as [H|[H|[]]]; auto.
Qed.
Lemma lead_inj n : forall m (a b : text), (forall u, a <> 32 :: u) -> (forall u, b <> 32 :: u) -> (repeat 32 n ++ a = repeat 32 m ++ b)%list -> a = b.
Proof.
  induction n as [|n IH]; intros [|m] a b Ha Hb E; cbn in E; [exact E|exfalso; eapply Ha; exact E|exfalso; eapply Hb; symmetry; exact E|].
  injection E as E. eapply IH; eassumption.
Qed.
Lemma pad_left_inj w a b : (forall u, a <> 32 :: u) -> (forall u, b <> 32 :: u) -> pad_left w a = pad_left w b -> a = b.
Proof. intros Ha Hb. apply lead_inj; assumption. Qed.
Lemma rev_repeat (x : nat) n : rev (repeat x n) = repeat x n.
Proof. induction n as [|n IH]; [reflexivity|]. cbn [repeat rev]. rewrite IH. rewrite <- (repeat_cons n x). reflexivity. Qed.
Lemma pad_right_inj w a b : (forall u, a <> (u ++ [32])%list) -> (forall u, b <> (u ++ [32])%list) -> pad_right w a = pad_right w b -> a = b.
Proof.
  intros Ha Hb E. apply (f_equal (@rev nat)) in E. unfold pad_right in E. rewrite !rev_app_distr, !rev_repeat in E.
  apply lead_inj in E; [rewrite <- (rev_involutive a), E; apply rev_involutive| |].
  - intros u Eu. apply (Ha (rev u)). rewrite <- (rev_involutive a), Eu. reflexivity.
  - intros u Eu. apply (Hb (rev u)). rewrite <- (rev_involutive b), Eu. reflexivity.
Qed.
Lemma in_pad_left c w a : In c (pad_left w a) -> c = 32 \/ In c a.
Proof. unfold pad_left. intros H. apply in_app_or in H as [H|H]; [left; symmetry; exact (eq_sym (repeat_spec _ _ _ H))|right; exact H]. Qed.
Lemma in_pad_right c w a : In c (pad_right w a) -> c = 32 \/ In c a.
Proof. unfold pad_right. intros H. apply in_app_or in H as [H|H]; [right; exact H|left; symmetry; exact (eq_sym (repeat_spec _ _ _ H))]. Qed.
Lemma length_pad_left w a : length a <= w -> length (pad_left w a) = w.
Proof. intros H. unfold pad_left. rewrite app_length, repeat_length. lia. Qed.
Lemma length_pad_right w a : length a <= w -> length (pad_right w a) = w.
Proof. intros H. unfold pad_right. rewrite app_length, repeat_length. lia. Qed.

(** ** Rounding *)
Lemma Int_part_bounds y : (IZR (Int_part y) <= y < IZR (Int_part y) + 1)%R.
Proof. destruct (base_Int_part y). lra. Qed.
Lemma Int_part_nonneg y : (0 <= y)%R -> (0 <= Int_part y)%Z.
Proof.
  intros H. destruct (Int_part_bounds y) as [_ H2]. assert (IZR (Int_part y) + 1 > 0)%R by lra.
  rewrite <- plus_IZR in H0. apply lt_IZR in H0. lia.
Qed.
Lemma round_even_near y : (0 <= y)%R -> (0 <= round_even y)%Z /\ (Rabs (IZR (round_even y) - y) <= / 2)%R.
Proof.
  intros H. pose proof (Int_part_nonneg y H) as H0. pose proof (Int_part_bounds y) as Hb. unfold round_even.
  assert (Hf : frac_part y = (y - IZR (Int_part y))%R) by reflexivity.
  destruct (Rlt_dec _ _) as [L|L]; [split; [exact H0|apply Rabs_le; lra]|]. destruct (Rlt_dec _ _) as [L2|L2].
  - split; [lia|]. rewrite plus_IZR. apply Rabs_le. lra.
  - assert (frac_part y = (1/2)%R) by lra. destruct (Z.even _); (split; [lia|]); rewrite ?plus_IZR; apply Rabs_le; lra.
Qed.

(** ** Decimal notation *)
Lemma fold_digits_app (a b : text) v : fold_left (fun v c => 10 * v + (c - 48)) (a ++ b)%list v = fold_left (fun v c => 10 * v + (c - 48)) b (fold_left (fun v c => 10 * v + (c - 48)) a v).
Proof. apply fold_left_app. Qed.
Lemma zero_padded_length d : forall n, length (zero_padded d n) = d.
Proof. induction d as [|d IH]; intros n; [reflexivity|]. cbn [zero_padded]. rewrite app_length, IH. cbn. lia. Qed.
Lemma digit_range n c : c = Z.to_nat (48 + n mod 10) -> 48 <= c <= 57.
Proof. intros ->. pose proof (Z.mod_pos_bound n 10). lia. Qed.
Lemma zero_padded_digits d : forall n c, In c (zero_padded d n) -> 48 <= c <= 57.
Proof.
  induction d as [|d IH]; intros n c H; [destruct H|]. cbn [zero_padded] in H. apply in_app_or in H as [H|[H|[]]]; [exact (IH _ _ H)|].
  eapply digit_range. symmetry. exact H.
Qed.
Lemma zero_padded_value d : forall n, (0 <= n < 10 ^ Z.of_nat d)%Z -> fold_left (fun v c => 10 * v + (c - 48)) (zero_padded d n) 0 = Z.to_nat n.
Proof.
  induction d as [|d IH]; intros n H; [change (10 ^ Z.of_nat 0)%Z with 1%Z in H; cbn; lia|].
  cbn [zero_padded]. rewrite fold_digits_app. rewrite Nat2Z.inj_succ, Z.pow_succ_r in H by lia.
  rewrite IH by (split; [apply Z.div_pos; lia|apply Z.div_lt_upper_bound; lia]). cbn [fold_left].
  pose proof (Z.div_mod n 10). pose proof (Z.mod_pos_bound n 10). assert (0 <= n / 10)%Z by (apply Z.div_pos; lia). lia.
Qed.
Lemma pow10 d : IZR (10 ^ Z.of_nat d) = (10 ^ d)%R.
Proof. rewrite <- pow_IZR. reflexivity. Qed.
Lemma pow10_pos d : (0 < 10 ^ d)%R.
Proof. apply pow_lt. lra. Qed.
Lemma INR_of_Z n : (0 <= n)%Z -> INR (Z.to_nat n) = IZR n.
Proof. intros H. rewrite INR_IZR_INZ, Z2Nat.id by exact H. reflexivity. Qed.
Lemma str_nonneg n : (0 <= n)%Z -> denotes (str_int n) (Z.to_nat n).
Proof. intros H. rewrite <- (Z2Nat.id n) at 1 by exact H. rewrite str_nat. apply numeral_ok. Qed.

Lemma fixed_approximates d f : d <> O -> approximates d f (fixed d f).
Proof.
  intros Hd. destruct f as [x|]; [|reflexivity]. cbn [approximates fixed].
  set (m := round_even _). pose proof (pow10_pos d) as Hp.
  assert (Hy : (0 <= Rabs x * IZR (10 ^ Z.of_nat d))%R) by (rewrite pow10; apply Rmult_le_pos; [apply Rabs_pos|lra]).
  destruct (round_even_near _ Hy) as [Hm Hr]. fold m in Hm, Hr. rewrite pow10 in Hr.
  set (P := (10 ^ Z.of_nat d)%Z). assert (HP : (0 < P)%Z) by (apply Z.pow_pos_nonneg; lia).
  assert (Hdiv : (0 <= m / P)%Z) by (apply Z.div_pos; lia). pose proof (Z.mod_pos_bound m P HP) as Hmod.
  set (neg := if Rlt_dec x 0 then true else false).
  exists ((if neg then -1 else 1) * (INR (Z.to_nat (m / P)) + INR (Z.to_nat (m mod P)) / 10 ^ d))%R. split.
  - exists neg, (str_int (m / P)), (zero_padded d (m mod P)), (Z.to_nat (m / P)), (Z.to_nat (m mod P)).
    split; [subst neg; destruct (Rlt_dec x 0); reflexivity|]. split; [apply str_nonneg; exact Hdiv|]. split; [|split; [apply zero_padded_length|reflexivity]].
    split; [|split; [apply zero_padded_digits|apply zero_padded_value; exact Hmod]].
    intros E. pose proof (zero_padded_length d (m mod P)) as L. rewrite E in L. cbn in L. lia.
  - rewrite !INR_of_Z by lia.
    assert (Hmm : (IZR (m / P) + IZR (m mod P) / 10 ^ d = IZR m / 10 ^ d)%R).
    { rewrite (Z_div_mod_eq_full m P) at 3. rewrite plus_IZR, mult_IZR. unfold P at 3. rewrite pow10. field. lra. }
    rewrite Hmm.
    assert (Hx : x = ((if neg then -1 else 1) * Rabs x)%R).
    { subst neg. unfold Rabs. destruct (Rlt_dec x 0), (Rcase_abs x); lra. }
    rewrite Hx at 1. rewrite <- Rmult_minus_distr_l, Rabs_mult.
    replace (Rabs (if neg then -1 else 1)) with 1%R by (destruct neg; [rewrite Rabs_left by lra; lra|symmetry; apply Rabs_R1]). rewrite Rmult_1_l.
    replace (IZR m / 10 ^ d - Rabs x)%R with ((IZR m - Rabs x * 10 ^ d) * / 10 ^ d)%R by (field; lra).
    rewrite Rabs_mult, (Rabs_right (/ 10 ^ d)) by (left; apply Rinv_0_lt_compat; exact Hp).
    unfold Rdiv. apply Rmult_le_compat_r; [left; apply Rinv_0_lt_compat; exact Hp|exact Hr].
Qed.

Lemma fixed_chars d f c : In c (fixed d f) -> c = 45 \/ c = 46 \/ (48 <= c <= 57) \/ c = 97 \/ c = 110.
Proof.
  destruct f as [x|]; cbn [fixed].
  - set (m := round_even _). intros H. apply in_app_or in H as [H|H]; [destruct (Rlt_dec x 0); [destruct H as [<- |[]]; auto|destruct H]|].
    apply in_app_or in H as [H|H].
    + unfold str_int in H. apply in_app_or in H as [H|H]; [destruct (_ <? _)%Z; [destruct H as [<- |[]]; auto|destruct H]|].
      right. right. left. revert H. apply numeral_ok.
    + destruct H as [<- |H]; [auto|]. right. right. left. exact (zero_padded_digits _ _ _ H).
  - intros H. vm_compute in H. intuition lia.
Qed.
Lemma denotes_no_point t k : denotes t k -> ~ In 46 t.
Proof. intros (_ & H & _) Hin. specialize (H _ Hin). lia. Qed.
Lemma writes_unique d t v w : writes d t v -> writes d t w -> v = w.
Proof.
  intros (n1 & w1 & f1 & A1 & B1 & E1 & HA1 & HB1 & _ & ->) (n2 & w2 & f2 & A2 & B2 & E2 & HA2 & HB2 & _ & ->).
  assert (Hn : forall n w A, denotes w A -> ~ In 46 ((if n : bool then [45] else []) ++ w)%list).
  { intros n w A Hw Hin. apply in_app_or in Hin as [Hin|Hin]; [destruct n; [destruct Hin as [Hin|[]]; discriminate|destruct Hin]|exact (denotes_no_point _ _ Hw Hin)]. }
  rewrite E1, !app_assoc in E2. rewrite <- !app_assoc in E2. cbn [app] in E2.
  rewrite (app_assoc (if n1 then [45] else [])), (app_assoc (if n2 then [45] else [])) in E2.
  apply split_at in E2 as [E2 ->]; [|eapply Hn; exact HA1|eapply Hn; exact HA2].
  assert (n1 = n2 /\ w1 = w2) as [-> ->].
  { destruct HA1 as (N1 & D1 & _), HA2 as (N2 & D2 & _).
    destruct n1, n2; cbn in E2; [injection E2 as ->; auto| | |auto].
    - exfalso. subst w2. specialize (D2 45 (or_introl eq_refl)). lia.
    - exfalso. subst w1. specialize (D1 45 (or_introl eq_refl)). lia. }
  destruct HA1 as (_ & _ & HA1), HA2 as (_ & _ & HA2), HB1 as (_ & _ & HB1), HB2 as (_ & _ & HB2). rewrite HA1 in HA2. rewrite HB1 in HB2. subst. reflexivity.
Qed.
Lemma fixed_near d a b : d <> O -> fixed d a = fixed d b -> near d (Some a) (Some b).
Proof.
  intros Hd E. pose proof (fixed_approximates d a Hd) as Ha. pose proof (fixed_approximates d b Hd) as Hb. rewrite E in Ha.
  assert (Hnan : forall x v, ~ (writes d (fixed d (Num x)) v /\ fixed d (Num x) = [110; 97; 110])).
  { intros x v [(n & w & f & A & B & Ew & _) En]. rewrite En in Ew. assert (In 46 [110; 97; 110]) by (rewrite Ew; apply in_or_app; right; apply in_or_app; right; left; reflexivity).
    vm_compute in H. intuition discriminate. }
  destruct a as [x|], b as [y|]; cbn [approximates near] in *.
  - destruct Ha as (v & Hv & Hx), Hb as (w & Hw & Hy). rewrite (writes_unique d _ w v Hw Hv) in Hy.
    replace (x - y)%R with ((v - y) - (v - x))%R by lra. eapply Rle_trans; [apply Rabs_triang|]. rewrite Rabs_Ropp. pose proof (pow10_pos d).
    replace (/ 10 ^ d)%R with (/ 2 / 10 ^ d + / 2 / 10 ^ d)%R by (field; lra). lra.
  - destruct Ha as (v & Hv & Hx). rewrite <- E in Hv. apply (Hnan x v). split; [exact Hv|]. rewrite E. exact Hb.
  - destruct Hb as (v & Hv & Hx). apply (Hnan y v). split; [exact Hv|]. exact Ha.
  - exact Logic.I.
Qed.
