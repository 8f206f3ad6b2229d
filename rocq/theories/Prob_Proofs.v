(** Finite sums, probabilities, Gibbs' inequality. *)
From Coq Require Import Reals Lra Psatz.
From Verif Require Import Base Key_Model Key_Spec Prob_Spec.
Open Scope R_scope.

(** ** finite sums *)
Definition SumOf {A} (f : A -> R) (l : list A) : R := Sum (map f l).
Lemma Sum_app l m : Sum (l ++ m) = Sum l + Sum m.
Proof. induction l as [|x l IH]; simpl; [lra|]. rewrite IH. lra. Qed.
Lemma SumOf_cons {A} f (x : A) l : SumOf f (x :: l) = f x + SumOf f l. Proof. reflexivity. Qed.
Lemma SumOf_nil {A} (f : A -> R) : SumOf f [] = 0. Proof. reflexivity. Qed.
Lemma SumOf_ext {A} f g (l : list A) : (forall x, In x l -> f x = g x) -> SumOf f l = SumOf g l.
Proof. induction l as [|x l IH]; intros H; [reflexivity|]. rewrite !SumOf_cons, (H x), IH; simpl; auto. intros; apply H; simpl; auto. Qed.
Lemma SumOf_plus {A} f g (l : list A) : SumOf (fun x => f x + g x) l = SumOf f l + SumOf g l.
Proof. induction l as [|x l IH]; [unfold SumOf; simpl; lra|]. rewrite !SumOf_cons, IH. lra. Qed.
Lemma SumOf_scal {A} c f (l : list A) : SumOf (fun x => c * f x) l = c * SumOf f l.
Proof. induction l as [|x l IH]; [unfold SumOf; simpl; lra|]. rewrite !SumOf_cons, IH. lra. Qed.
Lemma SumOf_scal_r {A} c f (l : list A) : SumOf (fun x => f x * c) l = SumOf f l * c.
Proof. induction l as [|x l IH]; [unfold SumOf; simpl; lra|]. rewrite !SumOf_cons, IH. lra. Qed.
Lemma SumOf_zero {A} (f : A -> R) l : (forall x, In x l -> f x = 0) -> SumOf f l = 0.
Proof. induction l as [|x l IH]; intros H; [reflexivity|]. rewrite SumOf_cons, (H x), IH; simpl; auto; [lra|]. intros; apply H; simpl; auto. Qed.
Lemma SumOf_nonneg {A} (f : A -> R) l : (forall x, In x l -> 0 <= f x) -> 0 <= SumOf f l.
Proof. induction l as [|x l IH]; intros H; [unfold SumOf; simpl; lra|]. rewrite SumOf_cons. assert (0 <= f x) by (apply H; simpl; auto). assert (0 <= SumOf f l) by (apply IH; intros; apply H; simpl; auto). lra. Qed.
Lemma SumOf_le {A} (f g : A -> R) l : (forall x, In x l -> f x <= g x) -> SumOf f l <= SumOf g l.
Proof. induction l as [|x l IH]; intros H; [unfold SumOf; simpl; lra|]. rewrite !SumOf_cons. assert (f x <= g x) by (apply H; simpl; auto). assert (SumOf f l <= SumOf g l) by (apply IH; intros; apply H; simpl; auto). lra. Qed.
(** equal sums of ordered families are termwise equal *)
Lemma SumOf_le_eq {A} (f g : A -> R) l : (forall x, In x l -> f x <= g x) -> SumOf f l = SumOf g l -> forall x, In x l -> f x = g x.
Proof.
  induction l as [|y l IH]; intros H E x Hx; [contradiction|]. rewrite !SumOf_cons in E.
  assert (f y <= g y) by (apply H; simpl; auto). assert (SumOf f l <= SumOf g l) by (apply SumOf_le; intros; apply H; simpl; auto).
  destruct Hx as [<-|Hx]; [lra|]. apply IH; [intros; apply H; simpl; auto|lra|assumption].
Qed.
Lemma SumOf_swap {A B} (f : A -> B -> R) l m : SumOf (fun x => SumOf (f x) m) l = SumOf (fun y => SumOf (fun x => f x y) l) m.
Proof.
  induction l as [|x l IH].
  - rewrite SumOf_nil. symmetry. apply SumOf_zero. intros; apply SumOf_nil.
  - rewrite SumOf_cons, IH. rewrite <- SumOf_plus. apply SumOf_ext. intros y _. reflexivity.
Qed.
Lemma SumOf_filter {A} (f : A -> R) ev l : SumOf f (filter ev l) = SumOf (fun a => if ev a then f a else 0) l.
Proof. induction l as [|x l IH]; [reflexivity|]. simpl. rewrite SumOf_cons. destruct (ev x); [rewrite SumOf_cons|]; rewrite IH; lra. Qed.
Lemma SumOf_map {A B} (f : B -> R) (g : A -> B) l : SumOf f (map g l) = SumOf (fun a => f (g a)) l.
Proof. unfold SumOf. rewrite map_map. reflexivity. Qed.
Lemma SumOf_perm {A} (f : A -> R) l m : Permutation l m -> SumOf f l = SumOf f m.
Proof. induction 1; [reflexivity| | |congruence]; rewrite !SumOf_cons; [congruence|lra]. Qed.
Lemma SumOf_app {A} (f : A -> R) l m : SumOf f (l ++ m) = SumOf f l + SumOf f m.
Proof. unfold SumOf. rewrite map_app. apply Sum_app. Qed.
Lemma SumOf_const {A} c (l : list A) : SumOf (fun _ => c) l = INR (length l) * c.
Proof. induction l as [|x l IH]; [unfold SumOf; simpl; lra|]. rewrite SumOf_cons, IH. cbn [length]. rewrite S_INR. lra. Qed.
Lemma SumOf_flat_map {A B} (f : B -> R) (g : A -> list B) l : SumOf f (flat_map g l) = SumOf (fun a => SumOf f (g a)) l.
Proof. induction l as [|x l IH]; [reflexivity|]. simpl. rewrite SumOf_app, SumOf_cons, IH. reflexivity. Qed.

Lemma eqv_true v w : eqv v w = true <-> v = w.
Proof. unfold eqv. destruct list_eq_dec; split; congruence. Qed.
Lemma eqv_refl v : eqv v v = true. Proof. apply eqv_true; reflexivity. Qed.
Lemma eqv_false v w : eqv v w = false <-> v <> w.
Proof. unfold eqv. destruct list_eq_dec; split; congruence. Qed.
Lemma eqv_sym v w : eqv v w = eqv w v.
Proof. destruct (eqv v w) eqn:E; symmetry; [apply eqv_true; apply eqv_true in E; congruence|apply eqv_false; apply eqv_false in E; congruence]. Qed.

(** summing over a duplicate-free list of keys, only one of which matches *)
Lemma SumOf_pick {K} (f : K -> list Z) (g : K -> R) ks v k0 : NoDup (map f ks) -> In k0 ks -> f k0 = v ->
  SumOf (fun k => if eqv v (f k) then g k else 0) ks = g k0.
Proof.
  induction ks as [|k ks IH]; intros HN Hin Hv; [contradiction|]. inversion HN as [|? ? Hni HN']; subst. rewrite SumOf_cons.
  destruct Hin as [->|Hin].
  - rewrite eqv_refl. rewrite SumOf_zero; [lra|]. intros k Hk. destruct (eqv (f k0) (f k)) eqn:E; [|reflexivity].
    apply eqv_true in E. exfalso. apply Hni. rewrite E. apply in_map; assumption.
  - rewrite IH by auto. destruct (eqv (f k0) (f k)) eqn:E; [|lra]. apply eqv_true in E. exfalso. apply Hni. rewrite <- E. apply in_map; assumption.
Qed.
Lemma SumOf_pick_none {K} (f : K -> list Z) (g : K -> R) ks v : ~ In v (map f ks) ->
  SumOf (fun k => if eqv v (f k) then g k else 0) ks = 0.
Proof.
  intros Hni. apply SumOf_zero. intros k Hk. destruct (eqv v (f k)) eqn:E; [|reflexivity]. apply eqv_true in E. subst. exfalso. apply Hni. apply in_map; assumption.
Qed.

(** ** probabilities *)
Section Space.
  Context {A : Type} (S : space A).
  Hypothesis Hpos : forall a, In a (outcomes S) -> 0 <= weight S a.
  Notation O := (outcomes S).
  Notation w := (weight S).

  Lemma pr_sum ev : pr S ev = SumOf (fun a => if ev a then w a else 0) O.
  Proof. unfold pr. change (SumOf w (filter ev O) = SumOf (fun a => if ev a then w a else 0) O). apply SumOf_filter. Qed.
  Lemma pr_nonneg ev : 0 <= pr S ev.
  Proof. rewrite pr_sum. apply SumOf_nonneg. intros a Ha. destruct (ev a); [auto|lra]. Qed.
  Lemma pr_ext ev ev' : (forall a, In a O -> ev a = ev' a) -> pr S ev = pr S ev'.
  Proof. intros H. rewrite !pr_sum. apply SumOf_ext. intros a Ha. rewrite H by assumption. reflexivity. Qed.
  Lemma pr_le ev ev' : (forall a, In a O -> ev a = true -> ev' a = true) -> pr S ev <= pr S ev'.
  Proof.
    intros H. rewrite !pr_sum. apply SumOf_le. intros a Ha. specialize (H a Ha). specialize (Hpos a Ha).
    destruct (ev a), (ev' a); lra || (specialize (H eq_refl); discriminate).
  Qed.
  Lemma pr_pos a ev : In a O -> 0 < w a -> ev a = true -> 0 < pr S ev.
  Proof.
    rewrite pr_sum. intros Ha Hw He. destruct (in_split _ _ Ha) as (l1 & l2 & E). rewrite E, SumOf_app, SumOf_cons, He.
    assert (0 <= SumOf (fun a => if ev a then w a else 0) l1) by (apply SumOf_nonneg; intros b Hb; assert (0 <= w b) by (apply Hpos; rewrite E; apply in_or_app; auto); destruct (ev b); lra).
    assert (0 <= SumOf (fun a => if ev a then w a else 0) l2) by (apply SumOf_nonneg; intros b Hb; assert (0 <= w b) by (apply Hpos; rewrite E; apply in_or_app; simpl; auto); destruct (ev b); lra).
    lra.
  Qed.
  Lemma pr_witness ev : 0 < pr S ev -> exists a, In a O /\ 0 < w a /\ ev a = true.
  Proof.
    rewrite pr_sum. assert (H : forall l, (forall a, In a l -> 0 <= w a) -> 0 < SumOf (fun a => if ev a then w a else 0) l -> exists a, In a l /\ 0 < w a /\ ev a = true).
    { induction l as [|x l IH]; intros Hp Hs; [unfold SumOf in Hs; simpl in Hs; lra|]. rewrite SumOf_cons in Hs.
      destruct (ev x) eqn:E; [destruct (Rlt_dec 0 (w x)) as [Hx|Hx]; [exists x; simpl; auto|]|].
      - destruct IH as (a & H1 & H2); [intros; apply Hp; simpl; auto|assert (0 <= w x) by (apply Hp; simpl; auto); lra|]. exists a; simpl; intuition.
      - destruct IH as (a & H1 & H2); [intros; apply Hp; simpl; auto|lra|]. exists a; simpl; intuition. }
    apply H. exact Hpos.
  Qed.

  (** partition an event by the value of a variable *)
  Lemma pr_partition {K} (X : A -> list Z) ev (f : K -> list Z) (g : K -> R) ks : NoDup (map f ks) ->
    SumOf (fun k => pr S (fun a => ev a && eqv (X a) (f k))%bool * g k) ks =
    SumOf (fun a => w a * (if ev a then SumOf (fun k => if eqv (X a) (f k) then g k else 0) ks else 0)) O.
  Proof.
    intros HN. rewrite (SumOf_ext _ (fun k => SumOf (fun a => (if (ev a && eqv (X a) (f k))%bool then w a else 0) * g k) O)).
    2:{ intros k _. rewrite pr_sum, SumOf_scal_r. reflexivity. }
    rewrite SumOf_swap. apply SumOf_ext. intros a _. destruct (ev a); simpl.
    - rewrite <- SumOf_scal. apply SumOf_ext. intros k _. destruct (eqv (X a) (f k)); lra.
    - rewrite SumOf_zero; [lra|]. intros; lra.
  Qed.

  Lemma pr1_nonneg X x : 0 <= pr1 S X x. Proof. apply pr_nonneg. Qed.
  Lemma pr2_nonneg X x Y y : 0 <= pr2 S X x Y y. Proof. apply pr_nonneg. Qed.
  Lemma pr3_nonneg X x Y y Z z : 0 <= pr3 S X x Y y Z z. Proof. apply pr_nonneg. Qed.
  Lemma pr2_le_l X x Y y : pr2 S X x Y y <= pr1 S X x.
  Proof. apply pr_le. intros a _ H. apply andb_true_iff in H. tauto. Qed.
  Lemma pr2_le_r X x Y y : pr2 S X x Y y <= pr1 S Y y.
  Proof. apply pr_le. intros a _ H. apply andb_true_iff in H. tauto. Qed.
  Lemma pr3_le_xz X x Y y Z z : pr3 S X x Y y Z z <= pr2 S X x Z z.
  Proof. apply pr_le. intros a _ H. rewrite !andb_true_iff in *. tauto. Qed.
  Lemma pr3_le_yz X x Y y Z z : pr3 S X x Y y Z z <= pr2 S Y y Z z.
  Proof. apply pr_le. intros a _ H. rewrite !andb_true_iff in *. tauto. Qed.
  Lemma pr3_swap X x Y y Z z : pr3 S X x Y y Z z = pr3 S Y y X x Z z.
  Proof. apply pr_ext. intros a _. f_equal. apply andb_comm. Qed.
  Lemma pr2_swap X x Y y : pr2 S X x Y y = pr2 S Y y X x.
  Proof. apply pr_ext. intros a _. apply andb_comm. Qed.
  Section At.
    Variables (X Y Z : A -> list BinNums.Z) (a : A).
    Hypothesis Ha : In a O.
    Hypothesis Hw : 0 < w a.
    Lemma pr1_at : 0 < pr1 S Z (Z a). Proof. eapply pr_pos; eauto. apply eqv_refl. Qed.
    Lemma pr2_at : 0 < pr2 S X (X a) Z (Z a). Proof. eapply pr_pos; eauto. rewrite !eqv_refl; reflexivity. Qed.
    Lemma pr3_at : 0 < pr3 S X (X a) Y (Y a) Z (Z a). Proof. eapply pr_pos; eauto. rewrite !eqv_refl; reflexivity. Qed.
  End At.
End Space.

Lemma ln_strict t : 0 < t -> t <> 1 -> ln t < t - 1.
Proof.
  intros Ht Hne. assert (ln t <> 0) by (intros H; apply Hne; rewrite <- (exp_ln t Ht), H, exp_0; reflexivity).
  pose proof (exp_ineq1 (ln t) H) as H'. rewrite exp_ln in H' by assumption. lra.
Qed.
Lemma ln_le t : 0 < t -> ln t <= t - 1.
Proof. intros Ht. destruct (Req_dec t 1) as [->|Hne]; [rewrite ln_1; lra|]. apply Rlt_le, ln_strict; assumption. Qed.

Section Gibbs.
  Context {A : Type} (S : space A).
  Hypothesis HS : is_probability S.
  Variables X Y Z : A -> list BinNums.Z.
  Notation O := (outcomes S).
  Notation w := (weight S).
  Let p3 a := pr3 S X (X a) Y (Y a) Z (Z a).
  Let pz a := pr1 S Z (Z a).
  Let px a := pr2 S X (X a) Z (Z a).
  Let py a := pr2 S Y (Y a) Z (Z a).
  Let Hpos := proj1 HS.

  Lemma total : SumOf w O = 1. Proof. exact (proj2 HS). Qed.
  Lemma cmi_SumOf : cmi S X Y Z = SumOf (fun a => w a * ln (p3 a * pz a / (px a * py a))) O. Proof. reflexivity. Qed.
  Lemma at_pos a : In a O -> 0 < w a -> 0 < p3 a /\ 0 < pz a /\ 0 < px a /\ 0 < py a.
  Proof. intros Ha Hw. repeat split; [apply pr3_at|apply pr1_at|apply pr2_at|apply pr2_at]; assumption. Qed.
  Lemma w_cases a : In a O -> w a = 0 \/ 0 < w a.
  Proof. intros Ha. specialize (Hpos a Ha). lra. Qed.

  Let cell b c : R := pr3 S X (X b) Y (Y c) Z (Z b).
  Let U := SumOf (fun a => w a * (px a * py a / (p3 a * pz a))) O.

  Lemma U_double : U = SumOf (fun b => SumOf (fun c => w b * w c * (if eqv (Z c) (Z b) then cell b c / (cell b c * pz b) else 0)) O) O.
  Proof.
    unfold U. rewrite (SumOf_ext _ (fun a => SumOf (fun b => SumOf (fun c =>
       (if (eqv (X b) (X a) && eqv (Z b) (Z a))%bool then w b else 0) * (if (eqv (Y c) (Y a) && eqv (Z c) (Z a))%bool then w c else 0) * (w a / (p3 a * pz a))) O) O)).
    2:{ intros a _. unfold px, py, pr2. rewrite !pr_sum. symmetry.
        rewrite (SumOf_ext _ (fun b => (if (eqv (X b) (X a) && eqv (Z b) (Z a))%bool then w b else 0) *
           (SumOf (fun c => (if (eqv (Y c) (Y a) && eqv (Z c) (Z a))%bool then w c else 0)) O * (w a / (p3 a * pz a)))) O).
        - rewrite SumOf_scal_r. unfold Rdiv. ring.
        - intros b _. rewrite <- SumOf_scal_r, <- SumOf_scal. apply SumOf_ext. intros c _. ring. }
    rewrite SumOf_swap. apply SumOf_ext. intros b _. rewrite SumOf_swap. apply SumOf_ext. intros c _.
    destruct (eqv (Z c) (Z b)) eqn:Ezz.
    - apply eqv_true in Ezz. transitivity (SumOf (fun a => w b * w c / (cell b c * pz b) * (if (eqv (X a) (X b) && eqv (Y a) (Y c) && eqv (Z a) (Z b))%bool then w a else 0)) O).
      + apply SumOf_ext. intros a _. destruct (eqv (X b) (X a)) eqn:E1; rewrite (eqv_sym (X a)), E1; [|simpl; ring].
        destruct (eqv (Y c) (Y a)) eqn:E2; rewrite (eqv_sym (Y a)), E2; [|simpl; ring].
        rewrite Ezz. destruct (eqv (Z b) (Z a)) eqn:E3; rewrite (eqv_sym (Z a)), E3; [|simpl; ring].
        apply eqv_true in E1, E2, E3. unfold p3, cell, pz. rewrite <- E1, <- E2, <- E3. simpl. unfold Rdiv. ring.
      + rewrite SumOf_scal. change (SumOf (fun a => if (eqv (X a) (X b) && eqv (Y a) (Y c) && eqv (Z a) (Z b))%bool then w a else 0) O) with
          (SumOf (fun a => if (fun a => eqv (X a) (X b) && eqv (Y a) (Y c) && eqv (Z a) (Z b))%bool a then w a else 0) O).
        rewrite <- pr_sum. fold (pr3 S X (X b) Y (Y c) Z (Z b)). fold (cell b c). unfold Rdiv. ring.
    - rewrite Rmult_0_r. apply SumOf_zero. intros a _. destruct (eqv (Z b) (Z a)) eqn:E3; [|rewrite andb_false_r; ring].
      destruct (eqv (Z c) (Z a)) eqn:E4; [|rewrite (andb_false_r (eqv (Y c) (Y a))); ring].
      apply eqv_true in E3, E4. apply eqv_false in Ezz. congruence.
  Qed.

  Let bound b := SumOf (fun c => w b * w c * (if eqv (Z c) (Z b) then / pz b else 0)) O.
  Lemma bound_eq b : In b O -> bound b = w b.
  Proof.
    intros Hb. unfold bound. rewrite (SumOf_ext _ (fun c => w b * / pz b * (if (fun c => eqv (Z c) (Z b)) c then w c else 0)) O).
    2:{ intros c _. destruct (eqv (Z c) (Z b)); ring. }
    rewrite SumOf_scal, <- pr_sum. fold (pr1 S Z (Z b)). fold (pz b). destruct (w_cases b Hb) as [E|E]; [rewrite E; ring|].
    destruct (at_pos b Hb E) as (_ & H & _). field. lra.
  Qed.
  Lemma term_le b c : In b O -> In c O ->
    w b * w c * (if eqv (Z c) (Z b) then cell b c / (cell b c * pz b) else 0) <= w b * w c * (if eqv (Z c) (Z b) then / pz b else 0).
  Proof.
    intros Hb Hc. destruct (eqv (Z c) (Z b)) eqn:E; [|lra]. destruct (w_cases b Hb) as [E1|E1]; [rewrite E1; lra|].
    destruct (at_pos b Hb E1) as (_ & H & _). apply Rmult_le_compat_l; [apply Rmult_le_pos; auto|].
    assert (0 < / pz b) by (apply Rinv_0_lt_compat; assumption).
    destruct (Req_dec (cell b c) 0) as [E2|E2]; [rewrite E2; unfold Rdiv; rewrite Rmult_0_l; lra|]. right. field. split; lra.
  Qed.
  Lemma U_le_1 : U <= 1.
  Proof.
    rewrite U_double, <- total. apply SumOf_le. intros b Hb. eapply Rle_trans; [|right; apply (bound_eq b Hb)]. apply SumOf_le. intros c Hc. apply term_le; assumption.
  Qed.
  Lemma U_eq_1 : U = 1 -> forall b c, In b O -> In c O -> 0 < w b -> 0 < w c -> Z c = Z b -> cell b c <> 0.
  Proof.
    rewrite U_double, <- total. intros E b c Hb Hc Hwb Hwc Hz.
    apply SumOf_le_eq with (x := b) in E; [|intros b' Hb'; eapply Rle_trans; [|right; apply (bound_eq b' Hb')]; apply SumOf_le; intros c' Hc'; apply term_le; assumption|assumption].
    cbv beta in E. pose proof (eq_trans E (eq_sym (bound_eq b Hb))) as E'. clear E. rename E' into E. unfold bound in E. apply SumOf_le_eq with (x := c) in E; [|intros c' Hc'; apply term_le; assumption|assumption].
    cbv beta in E. rewrite Hz, eqv_refl in E. intros E0. rewrite E0 in E. destruct (at_pos b Hb Hwb) as (_ & H & _).
    assert (0 < / pz b) by (apply Rinv_0_lt_compat; assumption). assert (0 < w b * w c) by (apply Rmult_lt_0_compat; assumption).
    assert (0 < w b * w c * / pz b) by (apply Rmult_lt_0_compat; assumption). unfold Rdiv in E. rewrite Rmult_0_l, Rmult_0_r in E. lra.
  Qed.

  Lemma gibbs_term a : In a O -> w a * (1 - px a * py a / (p3 a * pz a)) <= w a * ln (p3 a * pz a / (px a * py a)).
  Proof.
    intros Ha. destruct (w_cases a Ha) as [E|E]; [rewrite E; lra|]. destruct (at_pos a Ha E) as (H1 & H2 & H3 & H4).
    apply Rmult_le_compat_l; [lra|]. set (t := px a * py a / (p3 a * pz a)).
    assert (Ht : 0 < t) by (unfold t; apply Rdiv_lt_0_compat; apply Rmult_lt_0_compat; assumption).
    replace (p3 a * pz a / (px a * py a)) with (/ t) by (unfold t; field; repeat split; lra). rewrite ln_Rinv by assumption. pose proof (ln_le t Ht). lra.
  Qed.
  Lemma gibbs_sum : SumOf (fun a => w a * (1 - px a * py a / (p3 a * pz a))) O = 1 - U.
  Proof.
    unfold U. rewrite (SumOf_ext _ (fun a => w a + -1 * (w a * (px a * py a / (p3 a * pz a))))) by (intros; ring).
    rewrite SumOf_plus, SumOf_scal, total. lra.
  Qed.
  Theorem cmi_nonneg : 0 <= cmi S X Y Z.
  Proof.
    rewrite cmi_SumOf. eapply Rle_trans; [|apply SumOf_le; apply gibbs_term]. rewrite gibbs_sum. pose proof U_le_1. lra.
  Qed.
  Theorem cmi_zero_iff : cmi S X Y Z = 0 <-> cond_independent S X Y Z.
  Proof.
    split.
    - intros E. rewrite cmi_SumOf in E.
      assert (E1 : SumOf (fun a => w a * (1 - px a * py a / (p3 a * pz a))) O = SumOf (fun a => w a * ln (p3 a * pz a / (px a * py a))) O).
      { apply Rle_antisym; [apply SumOf_le; apply gibbs_term|]. rewrite E, gibbs_sum. pose proof U_le_1. lra. }
      assert (EU : U = 1) by (rewrite gibbs_sum, E in E1; lra).
      pose proof (SumOf_le_eq _ _ _ gibbs_term E1) as Ht. cbv beta in Ht.
      intros x y z. pose proof (pr3_nonneg S Hpos X x Y y Z z) as H3. pose proof (pr3_le_xz S Hpos X x Y y Z z) as Hx. pose proof (pr3_le_yz S Hpos X x Y y Z z) as Hy.
      destruct (Req_dec (pr2 S X x Z z) 0) as [E0|E0]; [rewrite E0 in *; replace (pr3 S X x Y y Z z) with 0 by lra; ring|].
      destruct (Req_dec (pr2 S Y y Z z) 0) as [E0'|E0']; [rewrite E0' in *; replace (pr3 S X x Y y Z z) with 0 by lra; ring|].
      destruct (pr_witness S Hpos (fun a => eqv (X a) x && eqv (Z a) z)%bool) as (b & Hb & Hwb & Eb); [fold (pr2 S X x Z z); lra|].
      destruct (pr_witness S Hpos (fun a => eqv (Y a) y && eqv (Z a) z)%bool) as (c & Hc & Hwc & Ec); [fold (pr2 S Y y Z z); lra|].
      apply andb_true_iff in Eb as (Eb1 & Eb2). apply andb_true_iff in Ec as (Ec1 & Ec2). apply eqv_true in Eb1, Eb2, Ec1, Ec2.
      pose proof (U_eq_1 EU b c Hb Hc Hwb Hwc ltac:(congruence)) as HP. unfold cell in HP. rewrite Eb1, Eb2, Ec1 in HP.
      destruct (pr_witness S Hpos (fun a => eqv (X a) x && eqv (Y a) y && eqv (Z a) z)%bool) as (a & Ha & Hwa & Ea); [fold (pr3 S X x Y y Z z); lra|].
      apply andb_true_iff in Ea as (Ea & Ea3). apply andb_true_iff in Ea as (Ea1 & Ea2). apply eqv_true in Ea1, Ea2, Ea3. rewrite <- Ea1, <- Ea2, <- Ea3.
      specialize (Ht a Ha). destruct (at_pos a Ha Hwa) as (G1 & G2 & G3 & G4). apply Rmult_eq_reg_l in Ht; [|lra].
      fold (p3 a) (pz a) (px a) (py a). set (t := px a * py a / (p3 a * pz a)) in *.
      assert (Htp : 0 < t) by (unfold t; apply Rdiv_lt_0_compat; apply Rmult_lt_0_compat; assumption).
      replace (p3 a * pz a / (px a * py a)) with (/ t) in Ht by (unfold t; field; repeat split; lra). rewrite ln_Rinv in Ht by assumption.
      assert (Et : t = 1). { destruct (Req_dec t 1) as [|Hne]; [assumption|]. pose proof (ln_strict t Htp Hne). lra. }
      unfold t in Et. apply (f_equal (fun r => r * (p3 a * pz a))) in Et. unfold Rdiv in Et. rewrite Rmult_assoc, Rinv_l, Rmult_1_r, Rmult_1_l in Et by (apply Rmult_integral_contrapositive; split; lra). symmetry. exact Et.
    - intros H. rewrite cmi_SumOf. apply SumOf_zero. intros a Ha. destruct (w_cases a Ha) as [E|E]; [rewrite E; ring|].
      destruct (at_pos a Ha E) as (G1 & G2 & G3 & G4). specialize (H (X a) (Y a) (Z a)). fold (p3 a) (pz a) (px a) (py a) in H. rewrite H.
      replace (px a * py a / (px a * py a)) with 1 by (field; split; lra). rewrite ln_1. ring.
  Qed.
  Theorem cmi_sym : cmi S X Y Z = cmi S Y X Z.
  Proof.
    unfold cmi. apply SumOf_ext. intros a _. rewrite (pr3_swap S Y), (Rmult_comm (pr2 S Y _ _ _)). reflexivity.
  Qed.
  (** the decomposition into joint entropies *)
  Theorem cmi_entropies HXYZ HXZ HYZ :
    (forall a, In a O -> pr1 S HXYZ (HXYZ a) = p3 a) -> (forall a, In a O -> pr1 S HXZ (HXZ a) = px a) -> (forall a, In a O -> pr1 S HYZ (HYZ a) = py a) ->
    cmi S X Y Z = entropy S HYZ + entropy S HXZ - entropy S HXYZ - entropy S Z.
  Proof.
    intros H1 H2 H3. unfold entropy. rewrite cmi_SumOf.
    change (Sum (map (fun a => w a * ln (pr1 S HYZ (HYZ a))) O)) with (SumOf (fun a => w a * ln (pr1 S HYZ (HYZ a))) O).
    change (Sum (map (fun a => w a * ln (pr1 S HXZ (HXZ a))) O)) with (SumOf (fun a => w a * ln (pr1 S HXZ (HXZ a))) O).
    change (Sum (map (fun a => w a * ln (pr1 S HXYZ (HXYZ a))) O)) with (SumOf (fun a => w a * ln (pr1 S HXYZ (HXYZ a))) O).
    change (Sum (map (fun a => w a * ln (pr1 S Z (Z a))) O)) with (SumOf (fun a => w a * ln (pr1 S Z (Z a))) O).
    rewrite (SumOf_ext (fun a => w a * ln (p3 a * pz a / (px a * py a))) (fun a => (w a * ln (p3 a) + w a * ln (pz a)) + -1 * (w a * ln (px a) + w a * ln (py a)))).
    - rewrite !SumOf_plus, SumOf_scal, !SumOf_plus.
      rewrite (SumOf_ext (fun a => w a * ln (pr1 S HYZ (HYZ a))) (fun a => w a * ln (py a))) by (intros a Ha; rewrite H3 by assumption; reflexivity).
      rewrite (SumOf_ext (fun a => w a * ln (pr1 S HXZ (HXZ a))) (fun a => w a * ln (px a))) by (intros a Ha; rewrite H2 by assumption; reflexivity).
      rewrite (SumOf_ext (fun a => w a * ln (pr1 S HXYZ (HXYZ a))) (fun a => w a * ln (p3 a))) by (intros a Ha; rewrite H1 by assumption; reflexivity).
      unfold pz. ring.
    - intros a Ha. destruct (w_cases a Ha) as [E|E]; [rewrite E; ring|]. destruct (at_pos a Ha E) as (G1 & G2 & G3 & G4).
      unfold Rdiv. rewrite ln_mult, ln_Rinv, !ln_mult; try assumption; [ring| | |]; try (apply Rmult_lt_0_compat; assumption).
      apply Rinv_0_lt_compat, Rmult_lt_0_compat; assumption.
  Qed.
End Gibbs.

Section App.
  Context {A : Type} (S : space A).
  Lemma eqv_app x1 x2 y1 y2 : length x1 = length y1 -> eqv (x1 ++ x2) (y1 ++ y2) = (eqv x1 y1 && eqv x2 y2)%bool.
  Proof.
    intros Hl. destruct (eqv (x1 ++ x2) (y1 ++ y2)) eqn:E; symmetry.
    - apply eqv_true in E. apply andb_true_iff. rewrite !eqv_true. revert y1 Hl E. induction x1 as [|a x1 IH]; intros [|b y1] Hl E; try discriminate; simpl in *; [tauto|].
      injection E as -> E. injection Hl as Hl. destruct (IH y1 Hl E) as (-> & ->). tauto.
    - apply eqv_false in E. apply andb_false_iff. rewrite !eqv_false. destruct (list_eq_dec Z.eq_dec x1 y1) as [->|]; [right; congruence|left; assumption].
  Qed.
  Lemma pr1_app X Y lx x y : (forall a, In a (outcomes S) -> length (X a) = lx) -> length x = lx ->
    pr1 S (fun a => X a ++ Y a) (x ++ y) = pr2 S X x Y y.
  Proof. intros H Hx. apply pr_ext. intros a Ha. apply eqv_app. rewrite H; auto. Qed.
  Lemma pr2_app X Y Z lx x y z : (forall a, In a (outcomes S) -> length (X a) = lx) -> length x = lx ->
    pr2 S (fun a => X a ++ Y a) (x ++ y) Z z = pr3 S X x Y y Z z.
  Proof. intros H Hx. apply pr_ext. intros a Ha. f_equal. apply eqv_app. rewrite H; auto. Qed.
End App.

Lemma Sum_rev_ext {A} (f g : A -> R) l : (forall x, f x = g x) -> Sum (map f l) = Sum (map g l).
Proof. intros H. apply SumOf_ext. auto. Qed.

(** mutual information is conditional mutual information given a constant *)
Section MI.
  Context {A : Type} (S : space A).
  Hypothesis HS : is_probability S.
  Variables X Y : A -> list BinNums.Z.
  Definition trivial_rv (_ : A) : list BinNums.Z := [].
  Lemma pr_trivial z : pr1 S trivial_rv z = if eqv [] z then 1 else 0.
  Proof.
    unfold pr1. rewrite pr_sum. unfold trivial_rv. destruct (eqv [] z); [apply (proj2 HS)|]. apply SumOf_zero. reflexivity.
  Qed.
  Lemma pr2_trivial x z : pr2 S X x trivial_rv z = if eqv [] z then pr1 S X x else 0.
  Proof.
    unfold pr2, pr1. rewrite !pr_sum. unfold trivial_rv. destruct (eqv [] z); [apply SumOf_ext; intros; rewrite andb_true_r; reflexivity|]. apply SumOf_zero. intros; rewrite andb_false_r; reflexivity.
  Qed.
End MI.
Lemma mi_cmi {A} (S : space A) X Y : is_probability S -> mi S X Y = cmi S X Y trivial_rv.
Proof.
  intros HS. apply SumOf_ext. intros a Ha. rewrite (pr_trivial S HS), !(pr2_trivial S), eqv_refl. rewrite Rmult_1_r. f_equal. f_equal. f_equal.
  apply pr_ext. intros b _. unfold trivial_rv. rewrite eqv_refl, andb_true_r. reflexivity.
Qed.
Lemma independent_cond {A} (S : space A) X Y : is_probability S -> independent S X Y <-> cond_independent S X Y trivial_rv.
Proof.
  intros HS. split.
  - intros H x y z. rewrite (pr_trivial S HS), !(pr2_trivial S). destruct (eqv [] z) eqn:E; [|ring]. apply eqv_true in E. subst z. rewrite Rmult_1_r, <- H.
    apply pr_ext. intros b _. unfold trivial_rv. rewrite eqv_refl, andb_true_r. reflexivity.
  - intros H x y. specialize (H x y []). rewrite (pr_trivial S HS), !(pr2_trivial S), eqv_refl, Rmult_1_r in H. rewrite <- H.
    apply pr_ext. intros b _. unfold trivial_rv. rewrite eqv_refl, andb_true_r. reflexivity.
Qed.
