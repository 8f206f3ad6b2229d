(** C88: what validate_all_citrs_equal guarantees about the results of the algorithms. *)
From Coq Require Import Reals Lra.
From Verif Require Import Base Matrix_Model Sources_Model Sources_Proofs GTest_Model CIResult_Model CIResult_Properties Validate_Model.
Open Scope Z_scope.

(** ** Specification *)
(** two results are the same, with the tolerances of the validation for the statistic and the p-value *)
Definition same_result (a b : ci_result) : Prop :=
  agree (set_tolerances (1 / 100000000)%R (1 / 1000000000)%R a) b.
(** the same as far as both lists go *)
Definition same_so_far (ref l : list ci_result) : Prop :=
  forall i a b, nth_error ref i = Some a -> nth_error l i = Some b -> same_result a b.

(** ** Lemmas *)
Lemma same_iff a b : ci_eq (set_tolerances statistic_tolerance p_tolerance a) b = Ok true <-> same_result a b.
Proof. apply C57_equal_iff_agree. Qed.
Lemma compare_ok ref : forall l, compare_results ref l = Ok tt <-> same_so_far ref l.
Proof.
  induction ref as [|a ref IH]; intros l; cbn [compare_results].
  - split; [|reflexivity]. intros _ i x y H. destruct i; discriminate H.
  - destruct l as [|b l]; [split; [|reflexivity]; intros _ i x y _ H; destruct i; discriminate H|].
    destruct (ci_eq (set_tolerances statistic_tolerance p_tolerance a) b) as [s|e] eqn:E; cbn [bind].
    + destruct s.
      * rewrite IH. apply same_iff in E. split.
        -- intros H [|i] x y Hx Hy; cbn [nth_error] in Hx, Hy; [congruence|]. exact (H i x y Hx Hy).
        -- intros H i x y Hx Hy. exact (H (S i) x y Hx Hy).
      * split; [intros H; discriminate H|]. intros H. pose proof (H 0%nat a b eq_refl eq_refl) as G. apply same_iff in G. congruence.
    + split; [intros H; discriminate H|]. intros H. pose proof (H 0%nat a b eq_refl eq_refl) as G. apply same_iff in G. congruence.
Qed.
Lemma compare_err ref : forall l e, compare_results ref l = Err e -> exists i a b,
  nth_error ref i = Some a /\ nth_error l i = Some b /\ ~ same_result a b /\ same_so_far (firstn i ref) (firstn i l) /\
  (e = ValueError \/ ci_eq (set_tolerances statistic_tolerance p_tolerance a) b = Err e).
Proof.
  induction ref as [|a ref IH]; intros l e H; cbn [compare_results] in H; [discriminate H|]. destruct l as [|b l]; [discriminate H|].
  destruct (ci_eq (set_tolerances statistic_tolerance p_tolerance a) b) as [s|e'] eqn:E; cbn [bind] in H.
  - destruct s.
    + destruct (IH l e H) as (i & x & y & Hx & Hy & N & Sf & Er). exists (S i), x, y. split; [exact Hx|]. split; [exact Hy|].
      split; [exact N|]. split; [|exact Er]. apply same_iff in E. cbn [firstn].
      intros [|j] u v Hu Hv; cbn [nth_error] in Hu, Hv; [congruence|]. exact (Sf j u v Hu Hv).
    + exists 0%nat, a, b. split; [reflexivity|]. split; [reflexivity|]. split; [intros G; apply same_iff in G; congruence|].
      split; [intros i x y Hx; destruct i; discriminate Hx|]. left. congruence.
  - exists 0%nat, a, b. split; [reflexivity|]. split; [reflexivity|]. split; [intros G; apply same_iff in G; congruence|].
    split; [intros i x y Hx; destruct i; discriminate Hx|]. right. congruence.
Qed.
Lemma all_ok ref c : compare_all ref c = Ok tt <-> forall key l, In (key, l) c -> key <> unoptimized -> same_so_far ref l.
Proof.
  induction c as [|(k, r) c IH]; cbn [compare_all]; [split; [intros _ key l []|reflexivity]|].
  destruct (text_eqb k unoptimized) eqn:E.
  - apply text_eqb_eq in E. rewrite IH. split.
    + intros H key l [I|I] N; [congruence|]. exact (H key l I N).
    + intros H key l I N. apply (H key l); [right; exact I|exact N].
  - assert (Nk : k <> unoptimized) by (intros ->; rewrite (proj2 (text_eqb_eq _ _) eq_refl) in E; discriminate E).
    destruct (compare_results ref r) as [[]|e] eqn:C; cbn [bind].
    + apply compare_ok in C. rewrite IH. split.
      * intros H key l [I|I] N; [assert (l = r) as -> by congruence; exact C|]. exact (H key l I N).
      * intros H key l I N. apply (H key l); [right; exact I|exact N].
    + split; [intros H; discriminate H|]. intros H. pose proof (H k r (or_introl eq_refl) Nk) as G. apply compare_ok in G. congruence.
Qed.

Lemma firstn_nth {A} : forall (l : list A) m i b, nth_error (firstn m l) i = Some b -> nth_error l i = Some b.
Proof.
  induction l as [|x l IH]; intros m i b Hb.
  - rewrite firstn_nil in Hb. exact Hb.
  - destruct m; [destruct i; discriminate Hb|]. destruct i; [exact Hb|]. exact (IH m i b Hb).
Qed.

(** ** The theorems *)
(** It passes exactly if the results of every algorithm are those of the reference, as far as both lists go. *)
Theorem C88_passes c : validate_all_citrs_equal c = Ok tt <->
  exists ref, assoc text_eqb unoptimized c = Some ref /\ forall key l, In (key, l) c -> key <> unoptimized -> same_so_far ref l.
Proof.
  unfold validate_all_citrs_equal. destruct (assoc text_eqb unoptimized c) as [ref|]; cbn [of_option bind].
  - rewrite all_ok. split; [intros H; exists ref; auto|]. intros (r & E & H). assert (r = ref) as -> by congruence. exact H.
  - split; [intros H; discriminate H|]. intros (r & E & _). discriminate E.
Qed.

(** When it raises, there is no reference, or the results of some algorithm differ from it at some test, the first one where
    they do; ValueError, unless the two could not be compared at all. *)
Theorem C88_raises c e : validate_all_citrs_equal c = Err e ->
  (assoc text_eqb unoptimized c = None /\ e = KeyError) \/
  exists ref key l i a b, assoc text_eqb unoptimized c = Some ref /\ In (key, l) c /\ key <> unoptimized /\
    nth_error ref i = Some a /\ nth_error l i = Some b /\ ~ same_result a b /\ same_so_far (firstn i ref) (firstn i l) /\
    (e = ValueError \/ ci_eq (set_tolerances (1 / 100000000)%R (1 / 1000000000)%R a) b = Err e).
Proof.
  unfold validate_all_citrs_equal. destruct (assoc text_eqb unoptimized c) as [ref|]; cbn [of_option bind]; intros H; [right|left; split; [reflexivity|congruence]].
  assert (G : forall d, incl d c -> compare_all ref d = Err e -> exists key l, In (key, l) c /\ key <> unoptimized /\ compare_results ref l = Err e).
  { induction d as [|(k, r) d IH]; intros I D; cbn [compare_all] in D; [discriminate D|].
    destruct (text_eqb k unoptimized) eqn:E; [apply IH; [intros x Hx; apply I; right; exact Hx|exact D]|].
    destruct (compare_results ref r) as [[]|e'] eqn:C; cbn [bind] in D.
    - apply IH; [intros x Hx; apply I; right; exact Hx|exact D].
    - exists k, r. split; [apply I; left; reflexivity|]. split; [|congruence].
      intros ->. rewrite (proj2 (text_eqb_eq _ _) eq_refl) in E. discriminate E. }
  destruct (G c (fun x Hx => Hx) H) as (key & l & I & N & C). destruct (compare_err ref l e C) as (i & a & b & Ha & Hb & Nab & Sf & Er).
  exists ref, key, l, i, a, b. repeat (split; [assumption || reflexivity|]). exact Er.
Qed.

(** Two algorithms that have passed against one reference differ from each other by at most twice the tolerances, and in
    nothing else. *)
Theorem C88_any_two c k1 l1 k2 l2 i a b : validate_all_citrs_equal c = Ok tt ->
  In (k1, l1) c -> In (k2, l2) c -> k1 <> unoptimized -> k2 <> unoptimized ->
  nth_error l1 i = Some a -> nth_error l2 i = Some b ->
  (forall ref, assoc text_eqb unoptimized c = Some ref -> (i < length ref)%nat) ->
  agree (set_tolerances (2 / 100000000)%R (2 / 1000000000)%R a) b.
Proof.
  intros V I1 I2 N1 N2 Ha Hb L. apply C88_passes in V. destruct V as (ref & E & H). specialize (L ref E).
  destruct (nth_error ref i) as [r|] eqn:Hr; [|apply nth_error_None in Hr; lia].
  pose proof (H k1 l1 I1 N1 i r a Hr Ha) as A. pose proof (H k2 l2 I2 N2 i r b Hr Hb) as B.
  assert (G : forall t x y z, close t x y -> close t x z -> close (t + t) y z).
  { intros t x y z (u & v & -> & -> & D1) (u' & w & E' & -> & D2). assert (u' = u) as -> by congruence. exists v, w.
    split; [reflexivity|]. split; [reflexivity|]. apply Rabs_le. unfold Rabs in D1, D2. destruct (Rcase_abs (u - v)), (Rcase_abs (u - w)); lra. }
  unfold same_result, agree in *. cbn in A, B |- *.
  destruct A as (A1 & A2 & A3 & A4 & A5 & A6 & A7 & A8 & A9 & A10 & A11 & A12 & (A13 & A13') & A14).
  destruct B as (B1 & B2 & B3 & B4 & B5 & B6 & B7 & B8 & B9 & B10 & B11 & B12 & (B13 & B13') & B14).
  replace (2 / 100000000)%R with (1 / 100000000 + 1 / 100000000)%R by lra.
  replace (2 / 1000000000)%R with (1 / 1000000000 + 1 / 1000000000)%R by lra.
  repeat split; try congruence; eapply G; eassumption.
Qed.

(** But results that are missing at the end are not noticed: whatever passes, passes with the results of any algorithm but the
    reference cut off anywhere... *)
Theorem C88_truncated_refuted c (n : text -> nat) : validate_all_citrs_equal c = Ok tt ->
  validate_all_citrs_equal (map (fun e => (fst e, if text_eqb (fst e) unoptimized then snd e else firstn (n (fst e)) (snd e))) c) = Ok tt.
Proof.
  intros V. apply C88_passes in V. destruct V as (ref & E & H). apply C88_passes. exists ref. split.
  - clear H. induction c as [|(k, l) c IH]; [discriminate E|]. cbn [assoc map fst snd] in *.
    destruct (text_eqb unoptimized k) eqn:Ek; [|apply IH; exact E].
    apply text_eqb_eq in Ek. subst k. rewrite (proj2 (text_eqb_eq unoptimized unoptimized) eq_refl). exact E.
  - intros key l I N. apply in_map_iff in I. destruct I as ((k, l') & Ee & I). cbn [fst snd] in Ee.
    assert (k = key) as -> by congruence.
    assert (l = firstn (n key) l') as ->.
    { destruct (text_eqb key unoptimized) eqn:Ek; [apply text_eqb_eq in Ek; contradiction|congruence]. }
    intros i a b Ha Hb. apply (H key l' I N i a b Ha). exact (firstn_nth _ _ _ _ Hb).
Qed.
(** ... and a reference without results passes with everything. *)
Theorem C88_empty_reference_refuted c : assoc text_eqb unoptimized c = Some [] -> validate_all_citrs_equal c = Ok tt.
Proof. intros E. apply C88_passes. exists []. split; [exact E|]. intros key l _ _ i a b Ha. destruct i; discriminate Ha. Qed.

(** A reference, an algorithm whose statistic is half a tolerance off, and one that is two off. *)
Definition result_with (x : R) : ci_result := set_distribution [] (Num 0) None (set_statistic [] (Num x) None fresh_result).
Theorem C88_example : validate_all_citrs_equal [([1%nat], [result_with (1 / 200000000)]); (unoptimized, [result_with 0])] = Ok tt /\
  validate_all_citrs_equal [([1%nat], [result_with (2 / 100000000)]); (unoptimized, [result_with 0])] <> Ok tt.
Proof.
  split.
  - apply C88_passes. exists [result_with 0]. split; [reflexivity|]. intros key l [E|[E|[]]] N; [|congruence].
    assert (l = [result_with (1 / 200000000)]) as -> by congruence. intros i a b Ha Hb. destruct i as [|[|i]]; try discriminate Ha.
    assert (a = result_with 0) as -> by (cbn [nth_error] in Ha; congruence). assert (b = result_with (1 / 200000000)) as -> by (cbn [nth_error] in Hb; congruence).
    unfold same_result, agree, result_with. cbn.
    repeat split; try discriminate.
    + exists 0%R, (1 / 200000000)%R. split; [reflexivity|]. split; [reflexivity|]. apply Rabs_le. lra.
    + exists 0%R, 0%R. split; [reflexivity|]. split; [reflexivity|]. apply Rabs_le. lra.
  - intros V. apply C88_passes in V. destruct V as (ref & E & H).
    assert (E' : Some [result_with 0] = Some ref) by exact E. assert (ref = [result_with 0]) as -> by congruence.
    assert (N : [1%nat] <> unoptimized) by discriminate.
    destruct (H _ _ (or_introl eq_refl) N 0%nat _ _ eq_refl eq_refl) as (_ & _ & _ & _ & _ & _ & _ & (x & y & Ex & Ey & D) & _).
    assert (Ex' : Some (Num 0) = Some (Num x)) by exact Ex. assert (Ey' : Some (Num (2 / 100000000)) = Some (Num y)) by exact Ey.
    assert (x = 0%R) as -> by congruence. assert (y = (2 / 100000000)%R) as -> by congruence.
    change (Rabs (0 - 2 / 100000000) <= 1 / 100000000)%R in D.
    unfold Rabs in D. destruct (Rcase_abs _); lra.
Qed.
