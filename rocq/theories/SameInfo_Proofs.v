(** Random variables that carry the same information (each determines the other) have the same
    entropies, informations and numbers of values. *)
From Coq Require Import Reals.
From Verif Require Import Base Prob_Spec Prob_Proofs.
Open Scope Z_scope.

Notation vals_dec := (list_eq_dec Z.eq_dec).
Definition same_info {A} (l : list A) (U V : A -> list Z) : Prop := forall a b, In a l -> In b l -> (U a = U b <-> V a = V b).
Lemma same_info_refl {A} (l : list A) U : same_info l U U.
Proof. intros a b _ _. reflexivity. Qed.
Lemma same_info_sym {A} (l : list A) U V : same_info l U V -> same_info l V U.
Proof. intros H a b Ha Hb. symmetry. apply H; assumption. Qed.
Lemma same_info_incl {A} (l m : list A) U V : incl m l -> same_info l U V -> same_info m U V.
Proof. intros Hi H a b Ha Hb. apply H; apply Hi; assumption. Qed.

(** ** probabilities *)
Section Pr.
  Context {A : Type} (S : space A).
  Notation O := (outcomes S).
  Lemma same_eqv U V a b : same_info O U V -> In a O -> In b O -> eqv (U a) (U b) = eqv (V a) (V b).
  Proof.
    intros H Ha Hb. specialize (H a b Ha Hb). unfold eqv.
    destruct (vals_dec (U a) (U b)), (vals_dec (V a) (V b)); tauto.
  Qed.
  Lemma same_pr1 U V a : same_info O U V -> In a O -> pr1 S U (U a) = pr1 S V (V a).
  Proof. intros H Ha. apply pr_ext. intros b Hb. apply (same_eqv U V); assumption. Qed.
  Lemma same_pr2 U V U' V' a : same_info O U V -> same_info O U' V' -> In a O -> pr2 S U (U a) U' (U' a) = pr2 S V (V a) V' (V' a).
  Proof. intros H H' Ha. apply pr_ext. intros b Hb. rewrite (same_eqv U V), (same_eqv U' V') by assumption. reflexivity. Qed.
  Lemma same_pr3 U V U' V' U'' V'' a : same_info O U V -> same_info O U' V' -> same_info O U'' V'' -> In a O ->
    pr3 S U (U a) U' (U' a) U'' (U'' a) = pr3 S V (V a) V' (V' a) V'' (V'' a).
  Proof. intros H H' H'' Ha. apply pr_ext. intros b Hb. rewrite (same_eqv U V), (same_eqv U' V'), (same_eqv U'' V'') by assumption. reflexivity. Qed.
  Lemma same_entropy U V : same_info O U V -> entropy S U = entropy S V.
  Proof. intros H. unfold entropy. f_equal. apply (SumOf_ext (fun a => _)). intros a Ha. cbv beta. rewrite (same_pr1 U V) by assumption. reflexivity. Qed.
  Lemma same_cmi X X' Y Y' Z Z' : same_info O X X' -> same_info O Y Y' -> same_info O Z Z' -> cmi S X Y Z = cmi S X' Y' Z'.
  Proof.
    intros HX HY HZ. unfold cmi. apply (SumOf_ext (fun a => _)). intros a Ha. cbv beta.
    rewrite (same_pr3 X X' Y Y' Z Z'), (same_pr1 Z Z'), (same_pr2 X X' Z Z'), (same_pr2 Y Y' Z Z') by assumption. reflexivity.
  Qed.
End Pr.

(** ** numbers of distinct values *)
Definition count_distinct {A} (U : A -> list Z) (l : list A) : Z := Z.of_nat (length (nodup vals_dec (map U l))).
Lemma nodup_perm (l m : list (list Z)) : (forall v, In v l <-> In v m) -> Permutation (nodup vals_dec l) (nodup vals_dec m).
Proof. intros H. apply NoDup_Permutation; [apply NoDup_nodup..|]. intros v. rewrite !nodup_In. apply H. Qed.
Lemma nodup_id (l : list (list Z)) : NoDup l -> nodup vals_dec l = l.
Proof. apply nodup_fixed_point. Qed.
Lemma distinct_set {A B} (U : A -> list Z) (V : B -> list Z) l m : (forall v, In v (map U l) <-> In v (map V m)) -> count_distinct U l = count_distinct V m.
Proof. intros H. unfold count_distinct. f_equal. apply Permutation_length, nodup_perm, H. Qed.
Lemma distinct_same {A} (U V : A -> list Z) l : same_info l U V -> count_distinct U l = count_distinct V l.
Proof.
  intros H. unfold count_distinct. f_equal. induction l as [|a l IH]; [reflexivity|].
  assert (IH' := IH (same_info_incl (a :: l) l _ _ (fun x Hx => or_intror Hx) H)). cbn [map nodup].
  destruct (in_dec vals_dec (U a) (map U l)) as [i|n], (in_dec vals_dec (V a) (map V l)) as [i'|n']; [assumption| | |simpl; congruence]; exfalso.
  - apply n'. apply in_map_iff in i as (b & E & Hb). apply in_map_iff. exists b. split; [|assumption]. apply (H b a); [right; assumption|left; reflexivity|assumption].
  - apply n. apply in_map_iff in i' as (b & E & Hb). apply in_map_iff. exists b. split; [|assumption]. apply (H b a); [right; assumption|left; reflexivity|assumption].
Qed.
Lemma zsum_perm l m : Permutation l m -> zsum l = zsum m.
Proof. induction 1; simpl; lia. Qed.
Lemma zsum_ext {A} (f g : A -> Z) l : (forall x, In x l -> f x = g x) -> zsum (map f l) = zsum (map g l).
Proof. intros H. f_equal. apply map_ext_in, H. Qed.

(** one representative for each value *)
Fixpoint reps {A} (Z : A -> list BinNums.Z) (l : list A) : list A :=
  match l with [] => [] | a :: l' => if in_dec vals_dec (Z a) (map Z l') then reps Z l' else a :: reps Z l' end.
Lemma reps_nodup {A} (Z : A -> list BinNums.Z) l : nodup vals_dec (map Z l) = map Z (reps Z l).
Proof. induction l as [|a l IH]; [reflexivity|]. cbn [map nodup reps]. destruct (in_dec _ _ _); [assumption|]. cbn [map]. congruence. Qed.
Lemma reps_incl {A} (Z : A -> list BinNums.Z) l : incl (reps Z l) l.
Proof. induction l as [|a l IH]; [apply incl_refl|]. cbn [reps]. destruct (in_dec _ _ _); intros x Hx; [right; auto|]. destruct Hx as [-> | Hx]; [left; reflexivity|right; auto]. Qed.
Lemma reps_same {A} (Z Z' : A -> list BinNums.Z) l : same_info l Z Z' -> reps Z l = reps Z' l.
Proof.
  induction l as [|a l IH]; intros H; [reflexivity|].
  assert (IH' := IH (same_info_incl (a :: l) l _ _ (fun x Hx => or_intror Hx) H)). cbn [reps].
  destruct (in_dec vals_dec (Z a) (map Z l)) as [i|n], (in_dec vals_dec (Z' a) (map Z' l)) as [i'|n']; [assumption| | |congruence]; exfalso.
  - apply n'. apply in_map_iff in i as (b & E & Hb). apply in_map_iff. exists b. split; [|assumption]. apply (H b a); [right; assumption|left; reflexivity|assumption].
  - apply n. apply in_map_iff in i' as (b & E & Hb). apply in_map_iff. exists b. split; [|assumption]. apply (H b a); [right; assumption|left; reflexivity|assumption].
Qed.

Definition sdof {A} (l : list A) (X Y Z : A -> list BinNums.Z) : BinNums.Z :=
  zsum (map (fun z => let rs := filter (fun a => eqv (Z a) z) l in (count_distinct X rs - 1) * (count_distinct Y rs - 1))
            (nodup vals_dec (map Z l))).
Lemma filter_incl' {A} (f : A -> bool) l : incl (filter f l) l.
Proof. intros x Hx. apply filter_In in Hx. apply Hx. Qed.
Lemma sdof_same {A} (l : list A) X X' Y Y' Z Z' : same_info l X X' -> same_info l Y Y' -> same_info l Z Z' -> sdof l X Y Z = sdof l X' Y' Z'.
Proof.
  intros HX HY HZ. unfold sdof. rewrite !reps_nodup, !map_map, (reps_same Z Z' l HZ). apply zsum_ext. intros a Ha. cbv beta zeta.
  assert (Ha' : In a l) by (eapply reps_incl; eassumption).
  assert (E : filter (fun b => eqv (Z b) (Z a)) l = filter (fun b => eqv (Z' b) (Z' a)) l).
  { apply filter_ext_in. intros b Hb. apply (same_eqv {| outcomes := l; weight := fun _ => 0%R |}); assumption. }
  rewrite E. pose proof (filter_incl' (fun b => eqv (Z' b) (Z' a)) l) as Hi.
  rewrite (distinct_same X X'), (distinct_same Y Y'); [reflexivity|eapply same_info_incl; eassumption..].
Qed.
Lemma sdof_sym {A} (l : list A) X Y Z : sdof l X Y Z = sdof l Y X Z.
Proof. unfold sdof. apply zsum_ext. intros z _. cbv zeta. lia. Qed.
(** the same number from the set of joint values *)
Lemma sdof_set {A} (l : list A) (T : A -> list Z) (K : list (list Z)) (fx fy fz : list Z -> list Z) :
  (forall t, In t K <-> In t (map T l)) ->
  sdof K fx fy fz = sdof l (fun a => fx (T a)) (fun a => fy (T a)) (fun a => fz (T a)).
Proof.
  intros HK. unfold sdof.
  assert (H : forall (f : list Z -> list Z) v, In v (map f K) <-> In v (map (fun a => f (T a)) l)).
  { intros f v. rewrite !in_map_iff. split.
    - intros (t & E & Ht). apply HK in Ht. apply in_map_iff in Ht as (a & <- & Ha). eauto.
    - intros (a & E & Ha). exists (T a). split; [assumption|]. apply HK. apply in_map. assumption. }
  rewrite (zsum_perm _ _ (Permutation_map _ (nodup_perm _ _ (H fz)))). apply zsum_ext. intros z _. cbv zeta.
  assert (H2 : forall (f : list Z -> list Z), count_distinct f (filter (fun t => eqv (fz t) z) K) = count_distinct (fun a => f (T a)) (filter (fun a => eqv (fz (T a)) z) l)).
  { intros f. apply distinct_set. intros v. rewrite !in_map_iff. split.
    - intros (t & E & Ht). apply filter_In in Ht as (Ht & Ez). apply HK in Ht. apply in_map_iff in Ht as (a & <- & Ha). exists a. split; [assumption|]. apply filter_In. tauto.
    - intros (a & E & Ha). apply filter_In in Ha as (Ha & Ez). exists (T a). split; [assumption|]. apply filter_In. split; [|assumption]. apply HK. apply in_map. assumption. }
  rewrite !H2. reflexivity.
Qed.
Lemma sdof_nonneg {A} (l : list A) X Y Z : 0 <= sdof l X Y Z.
Proof.
  unfold sdof. assert (H : forall z, In z (nodup vals_dec (map Z l)) ->
    0 <= (let rs := filter (fun a => eqv (Z a) z) l in (count_distinct X rs - 1) * (count_distinct Y rs - 1))).
  { intros z Hz. cbv zeta. apply nodup_In, in_map_iff in Hz as (a & E & Ha).
    assert (Hp : forall U, 1 <= count_distinct U (filter (fun a => eqv (Z a) z) l)).
    { intros U. unfold count_distinct. assert (Hin : In (U a) (nodup vals_dec (map U (filter (fun a => eqv (Z a) z) l)))).
      { apply nodup_In, in_map, filter_In. split; [assumption|]. apply eqv_true. assumption. }
      destruct (nodup _ _); [contradiction|simpl; lia]. }
    pose proof (Hp X); pose proof (Hp Y). nia. }
  revert H. generalize (nodup vals_dec (map Z l)). intros m. induction m as [|z m IH]; intros H; simpl; [lia|].
  pose proof (H z (or_introl eq_refl)) as H0. cbv zeta in H0. specialize (IH (fun z' Hz => H z' (or_intror Hz))). lia.
Qed.
