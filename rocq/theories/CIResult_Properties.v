(** C57: comparing the results of conditional-independence tests. *)
From Coq Require Import Reals Lra.
From Verif Require Import Base Matrix_Model Sources_Model AD_Model AD_Examples GTest_Model GTest_Spec GTest_Properties Select_Properties CIResult_Model.
Open Scope Z_scope.

(** ** What equality is to mean *)
(** two numbers that are not nan and no further apart than [tol] *)
Definition close (tol : R) (a b : option float) : Prop :=
  exists x y, a = Some (Num x) /\ b = Some (Num y) /\ (Rabs (x - y) <= tol)%R.
(** equal significances: None, or the same number *)
Definition same_float (a b : option float) : Prop := a = b /\ a <> Some NaN.
Definition agree (a b : ci_result) : Prop :=
  independent a = independent b /\ dependent a = dependent b /\ insufficient_samples a = insufficient_samples b /\
  cX a = cX b /\ cY a = cY b /\ cZ a = cZ b /\ statistic a = statistic b /\
  close (tolerance_statistic a) (statistic_value a) (statistic_value b) /\
  statistic_parameters a = statistic_parameters b /\ test_distribution a = test_distribution b /\
  test_distribution_parameters a = test_distribution_parameters b /\
  close (tolerance_p a) (p_value a) (p_value b) /\
  same_float (c_significance a) (c_significance b) /\ computed_d_separation a = computed_d_separation b.
(** no value is missing *)
Definition has_numbers (a : ci_result) : Prop := statistic_value a <> None /\ p_value a <> None.
(** no value is nan *)
Definition no_nan (a : ci_result) : Prop := statistic_value a <> Some NaN /\ p_value a <> Some NaN.

Lemma opt_eq_iff {A} (eq : A -> A -> bool) (H : forall x y, eq x y = true <-> x = y) a b : opt_eq eq a b = true <-> a = b.
Proof. destruct a as [x|], b as [y|]; cbn; rewrite ?H; split; congruence. Qed.
Lemma bool_iff x y : Bool.eqb x y = true <-> x = y.
Proof. apply eqb_true_iff. Qed.
Lemma text_iff x y : text_eq x y = true <-> x = y.
Proof. unfold text_eq. destruct (list_eq_dec Nat.eq_dec x y); split; congruence. Qed.
Lemma shown_iff x y : shown_eq x y = true <-> x = y.
Proof. destruct x as [| |s], y as [| |t]; cbn; try (split; congruence). rewrite text_iff. split; congruence. Qed.
Lemma Zeqb_iff x y : Z.eqb x y = true <-> x = y.
Proof. apply Z.eqb_eq. Qed.
Lemma float_iff a b : opt_eq float_eq a b = true <-> same_float a b.
Proof.
  unfold same_float. destruct a as [[x|]|], b as [[y|]|]; cbn; try (split; intuition congruence). destruct (Req_EM_T x y); split; intuition congruence.
Qed.
Lemma within_iff tol a b : within tol a b = Ok true <-> close tol a b.
Proof.
  unfold within, close. destruct a as [[x|]|], b as [[y|]|]; try (split; [discriminate|intros (? & ? & ? & ? & _); congruence]).
  destruct (Rle_dec (Rabs (x - y)) tol) as [H|H]; split; try discriminate; try reflexivity.
  - intros _. exists x, y. auto.
  - intros (x' & y' & E & E' & Hle). injection E as <-. injection E' as <-. contradiction.
Qed.
Lemma and_then_true a b : and_then a b = Ok true <-> a = Ok true /\ b = Ok true.
Proof. destruct a as [[|]|e]; cbn; intuition congruence. Qed.
Lemma Ok_true (b : bool) : Ok b = Ok true <-> b = true.
Proof. split; congruence. Qed.

(** == is True exactly if the results agree *)
Theorem C57_equal_iff_agree : forall a b, ci_eq a b = Ok true <-> agree a b.
Proof.
  intros a b. unfold ci_eq, agree. rewrite !and_then_true, !Ok_true, !within_iff, float_iff, !(opt_eq_iff Bool.eqb bool_iff), !(opt_eq_iff text_eq text_iff), !(opt_eq_iff Z.eqb Zeqb_iff), !shown_iff. tauto.
Qed.
(** == and diff tell the same story, unless a value is nan; and they raise on the same results *)
Theorem C57_diff : forall a b, no_nan a -> no_nan b ->
  (ci_eq a b = Ok true <-> ci_diff a b = Ok None) /\
  (ci_eq a b = Ok false <-> exists f, ci_diff a b = Ok (Some f)) /\
  (forall e, ci_eq a b = Err e <-> ci_diff a b = Err e).
Proof.
  intros a b [Ha1 Ha2] [Hb1 Hb2].
  assert (Hw : forall tol (x y : option float), x <> Some NaN -> y <> Some NaN -> (exists c, within tol x y = Ok c /\ beyond tol x y = Ok (negb c)) \/ (within tol x y = Err TypeError /\ beyond tol x y = Err TypeError)).
  { intros tol x y Hx Hy. destruct x as [[x|]|]; [|congruence|right; destruct y as [[y|]|]; split; reflexivity]. destruct y as [[y|]|]; [|congruence|right; split; reflexivity].
    left. cbn. destruct (Rle_dec (Rabs (x - y)) tol) as [H|H], (Rgt_dec (Rabs (x - y)) tol) as [H'|H']; try (exfalso; lra); [exists true|exists false]; split; reflexivity. }
  unfold ci_eq, ci_diff.
  destruct (opt_eq Bool.eqb (independent a) (independent b)), (opt_eq Bool.eqb (dependent a) (dependent b)), (opt_eq Bool.eqb (insufficient_samples a) (insufficient_samples b));
    cbn [and_then or_report negb]; try (repeat split; try congruence; intros; try discriminate; eauto; destruct H; discriminate).
  destruct (shown_eq (cX a) (cX b)), (shown_eq (cY a) (cY b)), (shown_eq (cZ a) (cZ b)), (opt_eq text_eq (statistic a) (statistic b));
    cbn [and_then or_report negb]; try (repeat split; try congruence; intros; try discriminate; eauto; destruct H; discriminate).
  destruct (Hw (tolerance_statistic a) _ _ Ha1 Hb1) as [(c & E1 & E2)|(E1 & E2)]; rewrite E1, E2; cbn [and_then or_report]; [destruct c|];
    cbn [and_then or_report negb]; try (repeat split; try congruence; intros; try discriminate; eauto; destruct H; discriminate).
  destruct (opt_eq Z.eqb (statistic_parameters a) (statistic_parameters b)), (opt_eq text_eq (test_distribution a) (test_distribution b)), (opt_eq Z.eqb (test_distribution_parameters a) (test_distribution_parameters b));
    cbn [and_then or_report negb]; try (repeat split; try congruence; intros; try discriminate; eauto; destruct H; discriminate).
  destruct (Hw (tolerance_p a) _ _ Ha2 Hb2) as [(c' & F1 & F2)|(F1 & F2)]; rewrite F1, F2; cbn [and_then or_report]; [destruct c'|];
    cbn [and_then or_report negb]; try (repeat split; try congruence; intros; try discriminate; eauto; destruct H; discriminate).
  destruct (opt_eq float_eq (c_significance a) (c_significance b)), (opt_eq Bool.eqb (computed_d_separation a) (computed_d_separation b));
    cbn [and_then or_report negb]; repeat split; try congruence; intros; try discriminate; eauto; destruct H; discriminate.
Qed.
(** with a nan p-value in otherwise equal results: not equal, but diff finds no difference *)
Theorem C57_nan : forall a, agree a a -> let b := set_distribution [] NaN (test_distribution_parameters a) a in
  ci_eq b b = Ok false /\ ci_diff b b = Ok None.
Proof.
  intros a H. cbn zeta. set (b := set_distribution [] NaN (test_distribution_parameters a) a).
  destruct H as (_ & _ & _ & _ & _ & _ & _ & (x & y & Ex & _ & Hle) & _ & _ & _ & _ & Hs & _).
  assert (Ho : forall {A} (eq : A -> A -> bool) (H : forall x y, eq x y = true <-> x = y) v, opt_eq eq v v = true) by (intros A eq H v; apply opt_eq_iff; auto).
  assert (Es : statistic_value b = Some (Num x)) by exact Ex. assert (Hx : (0 <= tolerance_statistic b)%R) by (eapply Rle_trans; [apply Rabs_pos|exact Hle]).
  assert (Hz : Rabs (x - x) = 0%R) by (replace (x - x)%R with 0%R by lra; apply Rabs_R0).
  assert (Esig : opt_eq float_eq (c_significance b) (c_significance b) = true) by (apply float_iff; split; [reflexivity|]; destruct Hs as [E N]; exact N).
  unfold ci_eq, ci_diff. rewrite Es, Esig, !(Ho _ _ bool_iff), !(Ho _ _ text_iff), !(Ho _ _ Zeqb_iff), !(proj2 (shown_iff _ _) eq_refl). cbn [within beyond and_then or_report negb p_value b set_distribution].
  rewrite Hz. destruct (Rle_dec 0 (tolerance_statistic b)) as [_|N]; [|lra]. destruct (Rgt_dec 0 (tolerance_statistic b)) as [N|_]; [lra|]. cbn [and_then or_report]. auto.
Qed.

(** ** == as a relation *)
Theorem C57_reflexive : forall a, has_numbers a -> no_nan a -> c_significance a <> Some NaN -> (0 <= tolerance_statistic a)%R -> (0 <= tolerance_p a)%R -> ci_eq a a = Ok true.
Proof.
  intros a (H1 & H2) (N1 & N2) Hs T1 T2. apply C57_equal_iff_agree. unfold agree.
  assert (Hc : forall tol v, v <> None -> v <> Some NaN -> (0 <= tol)%R -> close tol v v).
  { intros tol v Hn Hnan Ht. destruct v as [[x|]|]; try congruence. exists x, x. split; [reflexivity|]. split; [reflexivity|]. replace (x - x)%R with 0%R by lra. rewrite Rabs_R0. exact Ht. }
  repeat (split; [solve [reflexivity|apply Hc; assumption]|]). split; [split; [reflexivity|exact Hs]|reflexivity].
Qed.
(** a result to which no statistic was given cannot even be compared with itself *)
Theorem C57_missing_value : forall a, statistic_value a = None -> ci_eq a a = Err TypeError /\ ci_diff a a = Err TypeError.
Proof.
  intros a H. assert (Ho : forall {A} (eq : A -> A -> bool) (H : forall x y, eq x y = true <-> x = y) v, opt_eq eq v v = true) by (intros A eq H0 v; apply opt_eq_iff; auto).
  unfold ci_eq, ci_diff. rewrite H, !(Ho _ _ bool_iff), !(Ho _ _ text_iff), !(proj2 (shown_iff _ _) eq_refl). split; reflexivity.
Qed.
Lemma close_sym tol a b : close tol a b -> close tol b a.
Proof. intros (x & y & -> & -> & H). exists y, x. rewrite Rabs_minus_sym. auto. Qed.
Theorem C57_symmetric : forall a b, tolerance_statistic a = tolerance_statistic b -> tolerance_p a = tolerance_p b -> (ci_eq a b = Ok true <-> ci_eq b a = Ok true).
Proof.
  assert (G : forall a b, tolerance_statistic a = tolerance_statistic b -> tolerance_p a = tolerance_p b -> agree a b -> agree b a).
  { intros a b E1 E2 (A & B & C & D & E & F & G & H & I & J & K & L & M & N). unfold agree. rewrite <- E1, <- E2.
    repeat (split; [first [symmetry; assumption|apply close_sym; assumption]|]). split; [|symmetry; exact N]. destruct M as [M1 M2]. split; congruence. }
  intros a b E1 E2. rewrite !C57_equal_iff_agree. split; apply G; auto.
Qed.
(** only the tolerances of the left-hand side count: with unequal tolerances == is not symmetric *)
Theorem C57_not_symmetric : forall a b, agree a b -> statistic_value a <> statistic_value b ->
  ci_eq a (set_tolerances 0 (tolerance_p b) b) = Ok true /\ ci_eq (set_tolerances 0 (tolerance_p b) b) a = Ok false.
Proof.
  intros a b Hab Hne. split; [apply C57_equal_iff_agree; exact Hab|].
  assert (N : ci_eq (set_tolerances 0 (tolerance_p b) b) a <> Ok true).
  { rewrite C57_equal_iff_agree. intros (_ & _ & _ & _ & _ & _ & _ & (x & y & Ex & Ey & H) & _). cbn in Ex, H. pose proof (Rabs_pos (x - y)) as Hp. assert (E0 : Rabs (x - y) = 0%R) by lra.
    apply Hne. rewrite Ex, Ey. destruct (Req_dec (x - y) 0) as [E|E]; [|apply Rabs_no_R0 in E; contradiction]. do 2 f_equal. lra. }
  destruct (ci_eq (set_tolerances 0 (tolerance_p b) b) a) as [[|]|e] eqn:E; [congruence|reflexivity|].
  exfalso. destruct Hab as (A & B & C & D & F & G & H & (x & y & Hx & Hy & _) & I & J & K & (u & v & Hu & Hv & _) & _).
  unfold ci_eq in E. cbn [set_tolerances statistic_value p_value tolerance_statistic tolerance_p] in E. rewrite Hx, Hy, Hu, Hv in E. cbn [within and_then] in E.
  repeat match type of E with context [if ?c then _ else _] => destruct c; try discriminate end.
Qed.
(** == is not transitive: three results whose statistics are a tolerance apart *)
Theorem C57_not_transitive : forall a x, agree a a -> statistic_value a = Some (Num x) -> (0 < tolerance_statistic a)%R ->
  let at_ y := set_statistic [] (Num y) (statistic_parameters a) a in
  let t := tolerance_statistic a in
  ci_eq (at_ x) (at_ (x + t)%R) = Ok true /\ ci_eq (at_ (x + t)%R) (at_ (x + t + t)%R) = Ok true /\ ci_eq (at_ x) (at_ (x + t + t)%R) = Ok false.
Proof.
  intros a x H Hx Ht at_ t. destruct H as (A & B & C & D & E & F & G & H & I & J & K & L & M & N).
  assert (Hyes : forall y, ci_eq (at_ y) (at_ (y + t)%R) = Ok true).
  { intros y. apply C57_equal_iff_agree. unfold agree. cbn.
    repeat (split; [first [reflexivity|assumption|exists y, (y + t)%R; split; [reflexivity|]; split; [reflexivity|]; replace (y - (y + t))%R with (- t)%R by lra; rewrite Rabs_Ropp, Rabs_right by (unfold t; lra); apply Rle_refl]|]). reflexivity. }
  split; [apply Hyes|]. split; [apply Hyes|].
  destruct L as (u & v & Hu & Hv & _).
  assert (No : ci_eq (at_ x) (at_ (x + t + t)%R) <> Ok true).
  { rewrite C57_equal_iff_agree. intros (_ & _ & _ & _ & _ & _ & _ & (x' & y' & Ex & Ey & Hle) & _). cbn in Ex, Ey. injection Ex as <-. injection Ey as <-. cbn in Hle.
    replace (x - (x + t + t))%R with (- (t + t))%R in Hle by lra. rewrite Rabs_Ropp, Rabs_right in Hle by (unfold t; lra). fold t in Hle. unfold t in *. lra. }
  destruct (ci_eq (at_ x) (at_ (x + t + t)%R)) as [[|]|e] eqn:Ee; [congruence|reflexivity|]. exfalso.
  unfold ci_eq in Ee. cbn [at_ set_statistic statistic_value p_value] in Ee. rewrite Hu in Ee. cbn [within and_then] in Ee.
  repeat match type of Ee with context [if ?c then _ else _] => destruct c; try discriminate end.
Qed.

(** ** How variables are written *)
Lemma numeral_ok n : denotes (digits (Nat.to_uint n)) n.
Proof. apply C45_every_number_has_a_numeral. Qed.
Lemma str_nat n : str_int (Z.of_nat n) = digits (Nat.to_uint n).
Proof. unfold str_int. rewrite (proj2 (Z.ltb_ge _ _)) by lia. rewrite Zabs2Nat.id. reflexivity. Qed.
Lemma str_nat_inj n m : str_int (Z.of_nat n) = str_int (Z.of_nat m) -> n = m.
Proof. rewrite !str_nat. intros E. destruct (numeral_ok n) as (_ & _ & <-). destruct (numeral_ok m) as (_ & _ & <-). rewrite E. reflexivity. Qed.
Lemma str_nat_digits n c : In c (str_int (Z.of_nat n)) -> (48 <= c <= 57)%nat.
Proof. rewrite str_nat. apply numeral_ok. Qed.
Lemma str_nat_nonempty n : str_int (Z.of_nat n) <> [].
Proof. rewrite str_nat. apply numeral_ok. Qed.

(** texts made of digits, then a character that is no digit *)
Lemma digits_prefix (s t u v : list nat) : (forall c, In c s -> (48 <= c <= 57)%nat) -> (forall c, In c t -> (48 <= c <= 57)%nat) ->
  forall a b, ~ (48 <= a <= 57)%nat -> ~ (48 <= b <= 57)%nat -> s ++ a :: u = t ++ b :: v -> s = t /\ a = b /\ u = v.
Proof.
  revert t. induction s as [|x s IH]; intros t Hs Ht a b Ha Hb E; destruct t as [|y t]; cbn in E.
  - injection E as -> ->. auto.
  - injection E as -> _. exfalso. apply Ha, Ht. left. reflexivity.
  - injection E as -> _. exfalso. apply Hb, Hs. left. reflexivity.
  - injection E as -> E. destruct (IH t) with (a := a) (b := b) as (-> & -> & ->); auto; intros c Hc; [apply Hs|apply Ht]; right; exact Hc.
Qed.
Lemma join_inj l : forall m, l <> [] -> m <> [] ->
  join_comma (map str_int (map Z.of_nat l)) ++ [125%nat] = join_comma (map str_int (map Z.of_nat m)) ++ [125%nat] -> l = m.
Proof.
  assert (Hstep : forall x l, exists c u, ~ (48 <= c <= 57)%nat /\ (c = 125%nat <-> l = []) /\
     join_comma (map str_int (map Z.of_nat (x :: l))) ++ [125%nat] = str_int (Z.of_nat x) ++ c :: u /\
     (l <> [] -> u = 32%nat :: join_comma (map str_int (map Z.of_nat l)) ++ [125%nat])).
  { intros x l0. destruct l0 as [|y l0].
    - exists 125%nat, []. cbn [map join_comma]. repeat split; auto; try lia. congruence.
    - exists 44%nat, (32%nat :: join_comma (map str_int (map Z.of_nat (y :: l0))) ++ [125%nat]). split; [lia|]. split; [split; [lia|discriminate]|]. split; [|reflexivity].
      cbn [map join_comma]. rewrite <- app_assoc. reflexivity. }
  induction l as [|x l IH]; intros m Hl Hm E; [congruence|]. destruct m as [|y m]; [congruence|].
  destruct (Hstep x l) as (c & u & Hc & Hcl & Ec & Hu). destruct (Hstep y m) as (d & v & Hd & Hdm & Ed & Hv).
  pose proof (eq_trans (eq_sym Ec) (eq_trans E Ed)) as E'.
  destruct (digits_prefix (str_int (Z.of_nat x)) (str_int (Z.of_nat y)) u v (str_nat_digits x) (str_nat_digits y) c d Hc Hd E') as (E1 & E2 & E3).
  apply str_nat_inj in E1. subst y d. f_equal.
  destruct l as [|x' l].
  - assert (c = 125%nat) by (apply Hcl; reflexivity). symmetry. apply Hdm. assumption.
  - destruct m as [|y' m]; [apply Hcl; apply Hdm; reflexivity|]. apply IH; [discriminate|discriminate|].
    rewrite Hu, Hv in E3 by discriminate. injection E3 as E3. exact E3.
Qed.
(** the text tells which columns Z has, and in which order *)
Theorem C57_columns_can_be_read_back : forall l m : list nat, represent_list (map Z.of_nat l) = represent_list (map Z.of_nat m) -> l = m.
Proof.
  assert (H0 : forall x, str_int (Z.of_nat x) <> Omega_sign).
  { intros x E. pose proof (str_nat_digits x 937%nat) as H. rewrite E in H. specialize (H (or_introl eq_refl)). apply proj2 in H. apply Nat.leb_le in H. vm_compute in H. discriminate. }
  assert (H1 : forall x (u : list nat), str_int (Z.of_nat x) <> 123%nat :: u).
  { intros x u E. pose proof (str_nat_digits x 123%nat) as H. rewrite E in H. specialize (H (or_introl eq_refl)). lia. }
  assert (H2 : forall u : list nat, Omega_sign <> 123%nat :: u).
  { intros u E. apply (f_equal (fun t => nth 0 t 0%nat)) in E. apply Nat.eqb_eq in E. vm_compute in E. discriminate. }
  assert (Hbig : forall x y l, represent_list (map Z.of_nat (x :: y :: l)) = 123%nat :: join_comma (map str_int (map Z.of_nat (x :: y :: l))) ++ [125%nat]) by reflexivity.
  intros l m E. destruct l as [|x [|x' l]], m as [|y [|y' m]]; rewrite ?Hbig in E; try reflexivity.
  - exfalso. symmetry in E. exact (H0 _ E).
  - exfalso. exact (H2 _ E).
  - exfalso. exact (H0 _ E).
  - f_equal. apply str_nat_inj, E.
  - exfalso. exact (H1 _ _ E).
  - exfalso. symmetry in E. exact (H2 _ E).
  - exfalso. symmetry in E. exact (H1 _ _ E).
  - apply join_inj; [discriminate|discriminate|]. injection E as E. exact E.
Qed.

(** ** Results of the G-tests *)
Lemma passed_column_text im c : represent (passed_column im c) = str_int (Z.of_nat c).
Proof.
  destruct im as [|dyn|]; cbn [passed_column represent].
  - destruct (Z.eqb_spec (Z.of_nat c) (-1024)); [lia|reflexivity].
  - destruct (Z.eqb_spec (Z.of_nat c) (-1)); [lia|]. destruct (Z.eqb_spec (Z.of_nat c) (-1024)); [lia|reflexivity].
  - destruct (Z.eqb_spec (Z.of_nat c) (-1)); [lia|]. destruct (Z.eqb_spec (Z.of_nat c) (-1024)); [lia|reflexivity].
Qed.
Lemma passed_Z_text im omega Z : (omega = true \/ im <> Plain \/ Z <> []) -> represent (passed_Z im omega Z) = represent_list (map Z.of_nat Z).
Proof.
  intros H. destruct im as [|dyn|]; cbn [passed_Z]; try reflexivity. destruct Z as [|c [|d Z]]; try reflexivity.
  - destruct omega; [reflexivity|]. destruct H as [H|[H|H]]; congruence.
  - cbn [represent]. destruct (Z.eqb_spec (Z.of_nat c) (-1024)); [lia|reflexivity].
Qed.
Lemma report_same im1 im2 o1 o2 p d r : (o1 = true \/ im1 <> Plain \/ r_Z r <> []) -> (o2 = true \/ im2 <> Plain \/ r_Z r <> []) -> report im1 o1 p d r = report im2 o2 p d r.
Proof.
  intros H1 H2. unfold report, set_variables. rewrite !passed_column_text, (passed_Z_text im1 o1 _ H1), (passed_Z_text im2 o2 _ H2). reflexivity.
Qed.
Lemma tolerance_pos : (0 <= tolerance)%R.
Proof. unfold tolerance. lra. Qed.
Lemma report_eq_self im o p d r : ci_eq (report im o p d r) (report im o p d r) = Ok true.
Proof.
  apply C57_reflexive; unfold report; destruct (r_independent r); cbn; try apply tolerance_pos; try (split; discriminate); discriminate.
Qed.
Lemma report_no_nan im o p d r : no_nan (report im o p d r).
Proof. unfold report. destruct (r_independent r); cbn; split; discriminate. Qed.

(** The results of a sequence of tests by two implementations (with the parameter 'omega', and with
    any source network) compare equal, one by one. *)
Theorem C57_implementations_agree : forall D p im1 im2 kind1 kind2 tests dsep,
  wf_for D im1 -> wf_for D im2 -> compatible im1 kind1 -> compatible im2 kind2 -> (kind1 = UnadjustedDoF <-> kind2 = UnadjustedDoF) ->
  order_ok p -> Forall (wf_test D) tests ->
  exists st1 st2 os st1' st2', start D im1 kind1 None None no_files = Ok st1 /\ start D im2 kind2 None None no_files = Ok st2 /\
    run_tests D p im1 kind1 st1 tests = Ok (os, st1') /\ run_tests D p im2 kind2 st2 tests = Ok (os, st2') /\
    length (results st1') = length tests /\
    Forall2 (fun r1 r2 => let a := report im1 true p (dsep (r_X r1) (r_Y r1) (r_Z r1)) r1 in
                          let b := report im2 true p (dsep (r_X r2) (r_Y r2) (r_Z r2)) r2 in
                          ci_eq a b = Ok true /\ ci_diff a b = Ok None) (results st1') (results st2').
Proof.
  intros D p im1 im2 k1 k2 tests dsep W1 W2 C1 C2 Hk Ho Ht.
  destruct (C13_implementations_agree D p im1 im2 k1 k2 tests W1 W2 C1 C2 Hk Ho Ht) as (st1 & st2 & os & st1' & st2' & E1 & E2 & R1 & R2 & E).
  destruct (C13_reports_the_G_statistic D p im1 k1 tests W1 C1 Ho Ht) as (st & os' & st' & S1 & S2 & _ & Hlog).
  exists st1, st2, os, st1', st2'. split; [exact E1|]. split; [exact E2|]. split; [exact R1|]. split; [exact R2|].
  assert (st = st1) by congruence. subst st. assert (st' = st1') by congruence. subst st'. split; [apply (proj1 Hlog)|]. rewrite <- E.
  generalize (results st1'). intros l. induction l as [|r l IH]; constructor; [|exact IH]. cbn zeta.
  rewrite (report_same im1 im2 true true p _ r (or_introl eq_refl) (or_introl eq_refl)). split; [apply report_eq_self|].
  apply (C57_diff _ _ (report_no_nan _ _ _ _ r) (report_no_nan _ _ _ _ r)), report_eq_self.
Qed.
(** Without the parameter 'omega' (which only the unoptimized test looks at), the results of a test
    with an empty Z differ: one shows no variable, the other Omega *)
Theorem C57_without_omega : forall p im2 o2 d r, im2 <> Plain -> r_Z r = [] ->
  ci_eq (report Plain false p d r) (report im2 o2 p d r) = Ok false /\ ci_diff (report Plain false p d r) (report im2 o2 p d r) = Ok (Some FZ).
Proof.
  intros p im2 o2 d r Him HZ. set (a := report Plain false p d r). set (b := report im2 o2 p d r).
  assert (Ea : cZ a = Shown empty_sign) by (unfold a, report; destruct (r_independent r); cbn; rewrite HZ; reflexivity).
  assert (Eb : cZ b = Shown Omega_sign) by (unfold b, report; destruct (r_independent r); cbn; rewrite HZ; destruct im2; try congruence; reflexivity).
  assert (N : shown_eq (cZ a) (cZ b) = false) by (rewrite Ea, Eb; vm_compute; reflexivity).
  assert (Hf : independent a = independent b /\ dependent a = dependent b /\ insufficient_samples a = insufficient_samples b /\ cX a = cX b /\ cY a = cY b).
  { unfold a, b, report. destruct (r_independent r); cbn [set_d_separation set_distribution set_statistic set_variables set_independent set_insufficient_samples set_index independent dependent insufficient_samples cX cY];
    repeat (split; [reflexivity|]); split; f_equal; rewrite !passed_column_text; reflexivity. }
  destruct Hf as (F1 & F2 & F3 & F4 & F5).
  assert (Ho : forall v : option bool, opt_eq Bool.eqb v v = true) by (intros v; apply (opt_eq_iff Bool.eqb bool_iff); reflexivity).
  unfold ci_eq, ci_diff. rewrite F1, F2, F3, F4, F5, N, !Ho, !(proj2 (shown_iff _ _) eq_refl). split; reflexivity.
Qed.
(** equal results are results of the same test: same columns, conditioned in the same order; so a
    test that is given the same columns in another order does not have an equal result *)
Theorem C57_same_test : forall im1 im2 o1 o2 p1 p2 d1 d2 r1 r2, o1 = true \/ im1 <> Plain \/ r_Z r1 <> [] -> o2 = true \/ im2 <> Plain \/ r_Z r2 <> [] ->
  ci_eq (report im1 o1 p1 d1 r1) (report im2 o2 p2 d2 r2) = Ok true -> r_X r1 = r_X r2 /\ r_Y r1 = r_Y r2 /\ r_Z r1 = r_Z r2 /\ r_independent r1 = r_independent r2.
Proof.
  intros im1 im2 o1 o2 p1 p2 d1 d2 r1 r2 H1 H2 E. apply C57_equal_iff_agree in E. destruct E as (Ei & _ & _ & Ex & Ey & Ez & _).
  assert (Hsh : forall im o p d r, cX (report im o p d r) = Shown (represent (passed_column im (r_X r))) /\ cY (report im o p d r) = Shown (represent (passed_column im (r_Y r))) /\
            cZ (report im o p d r) = Shown (represent (passed_Z im o (r_Z r))) /\ independent (report im o p d r) = r_independent r) by (intros im o p d r; unfold report; destruct (r_independent r); repeat split; reflexivity).
  destruct (Hsh im1 o1 p1 d1 r1) as (A1 & B1 & C1 & D1). destruct (Hsh im2 o2 p2 d2 r2) as (A2 & B2 & C2 & D2).
  rewrite A1, A2, !passed_column_text in Ex. rewrite B1, B2, !passed_column_text in Ey. rewrite C1, C2, (passed_Z_text _ _ _ H1), (passed_Z_text _ _ _ H2) in Ez.
  injection Ex as Ex. injection Ey as Ey. injection Ez as Ez. apply str_nat_inj in Ex, Ey. apply C57_columns_can_be_read_back in Ez. repeat split; congruence.
Qed.
(** too few samples: such results are equal if the variables are, whatever the data *)
Theorem C57_insufficient_samples : forall im o p p' d r r', r_X r = r_X r' -> r_Y r = r_Y r' -> r_Z r = r_Z r' -> r_independent r = None -> r_independent r' = None ->
  ci_eq (report im o p d r) (report im o p' d r') = Ok true.
Proof.
  intros im o p p' d r r' EX EY EZ E E'. apply C57_equal_iff_agree. unfold report. rewrite E, E', EX, EY, EZ. unfold agree. cbn.
  assert (Hc : close tolerance (Some (Num (-1))) (Some (Num (-1)))) by (exists (-1)%R, (-1)%R; repeat split; replace (-1 - -1)%R with 0%R by lra; rewrite Rabs_R0; apply tolerance_pos).
  repeat (split; [solve [reflexivity|exact Hc]|]). split; [split; [reflexivity|discriminate]|reflexivity].
Qed.

(** ** What a result says *)
(** the last verdict that was set decides: exactly one of independent and dependent, or neither *)
Theorem C57_last_verdict : forall c vs v, let r := fold_left set_verdict (vs ++ [v]) c in
  match v with
  | SetIndependent b s => independent r = Some b /\ dependent r = Some (negb b) /\ insufficient_samples r = None /\ c_significance r = Some s
  | SetDependent b s => independent r = Some (negb b) /\ dependent r = Some b /\ insufficient_samples r = None /\ c_significance r = Some s
  | SetInsufficient => independent r = None /\ dependent r = None /\ insufficient_samples r = Some true /\ c_significance r = None /\
                       statistic_value r = Some (Num (-1)) /\ p_value r = Some (Num (-1))
  end /\
  index r = index c /\ cX r = cX c /\ cY r = cY c /\ cZ r = cZ c /\ statistic r = statistic c /\ computed_d_separation r = computed_d_separation c.
Proof.
  intros c vs v r. unfold r. rewrite fold_left_app. cbn [fold_left]. split.
  - destruct v as [b s|b s|]; cbn; rewrite ?Bool.negb_involutive; repeat split.
  - assert (K : forall vs c, index (fold_left set_verdict vs c) = index c /\ cX (fold_left set_verdict vs c) = cX c /\ cY (fold_left set_verdict vs c) = cY c /\
        cZ (fold_left set_verdict vs c) = cZ c /\ statistic (fold_left set_verdict vs c) = statistic c /\ computed_d_separation (fold_left set_verdict vs c) = computed_d_separation c).
    { induction vs0 as [|w ws IH]; intro c0; [repeat split|]. cbn [fold_left]. destruct (IH (set_verdict c0 w)) as (A1 & A2 & A3 & A4 & A5 & A6).
      rewrite A1, A2, A3, A4, A5, A6. destruct w; repeat split. }
    destruct (K (vs ++ [v]) c) as (A1 & A2 & A3 & A4 & A5 & A6). rewrite fold_left_app in *. repeat split; assumption.
Qed.
(** the object that a G-test logs for the result [r] *)
Theorem C57_what_a_result_says : forall im omega p d r, (omega = true \/ im <> Plain \/ r_Z r <> []) ->
  let c := report im omega p d r in
  index c = r_index r /\ independent c = r_independent r /\ dependent c = option_map negb (r_independent r) /\
  (insufficient_samples c = Some true <-> r_independent r = None) /\ (insufficient_samples c = None <-> r_independent r <> None) /\
  cX c = Shown (str_int (Z.of_nat (r_X r))) /\ cY c = Shown (str_int (Z.of_nat (r_Y r))) /\ cZ c = Shown (represent_list (map Z.of_nat (r_Z r))) /\
  computed_d_separation c = d /\
  (forall b, r_independent r = Some b ->
     statistic c = Some letter_G /\ statistic_value c = Some (Num (r_G r)) /\ test_distribution c = Some chi2_name /\
     p_value c = Some (Num (r_p r)) /\ test_distribution_parameters c = Some (r_DoF r) /\ c_significance c = Some (Num (significance p)) /\
     accurate c = option_map (Bool.eqb b) d) /\
  (r_independent r = None -> statistic c = None /\ statistic_value c = Some (Num (-1)) /\ p_value c = Some (Num (-1)) /\ c_significance c = None /\
     (accurate c = None <-> d = None) /\ accurate c <> Some true).
Proof.
  intros im omega p d r HZ c. unfold c, report. pose proof (passed_Z_text im omega (r_Z r) HZ) as EZ.
  pose proof (passed_column_text im (r_X r)) as EX. pose proof (passed_column_text im (r_Y r)) as EY.
  destruct (r_independent r) as [b|] eqn:Er; cbn [set_d_separation set_distribution set_statistic set_variables set_independent set_insufficient_samples set_index fresh_result
    index independent dependent insufficient_samples cX cY cZ statistic statistic_value test_distribution test_distribution_parameters p_value c_significance computed_d_separation accurate option_map];
    rewrite EX, EY, EZ; repeat (split; [solve [reflexivity | split; intro H; (discriminate H || reflexivity || congruence || (exfalso; apply H; reflexivity))]|]).
  - split; [|discriminate]. intros b' Hb. injection Hb as <-. repeat (split; [reflexivity|]). unfold accurate. cbn. destruct d; reflexivity.
  - split; [discriminate|]. intros _. repeat (split; [reflexivity|]). unfold accurate. cbn. destruct d; split; (discriminate || (split; [discriminate|discriminate]) || (split; reflexivity)).
Qed.
(** different integers are written differently *)
Theorem C57_integers_can_be_read_back : forall i j : Z, str_int i = str_int j -> i = j.
Proof.
  intros i j H. destruct (Z.ltb_spec i 0) as [Hi|Hi], (Z.ltb_spec j 0) as [Hj|Hj].
  - assert (Ei : str_int i = 45%nat :: str_int (Z.of_nat (Z.abs_nat i))).
    { rewrite str_nat. unfold str_int. destruct (Z.ltb_spec i 0); [reflexivity|lia]. }
    assert (Ej : str_int j = 45%nat :: str_int (Z.of_nat (Z.abs_nat j))).
    { rewrite str_nat. unfold str_int. destruct (Z.ltb_spec j 0); [reflexivity|lia]. }
    rewrite Ei, Ej in H. injection H as H. apply str_nat_inj in H. lia.
  - exfalso. assert (Ei : exists t, str_int i = 45%nat :: t) by (unfold str_int; destruct (Z.ltb_spec i 0); [eexists; reflexivity|lia]). destruct Ei as [t Ei].
    rewrite <- (Z2Nat.id j Hj) in H. pose proof (str_nat_digits (Z.to_nat j) 45%nat) as K. rewrite <- H, Ei in K. specialize (K (or_introl eq_refl)). lia.
  - exfalso. assert (Ej : exists t, str_int j = 45%nat :: t) by (unfold str_int; destruct (Z.ltb_spec j 0); [eexists; reflexivity|lia]). destruct Ej as [t Ej].
    rewrite <- (Z2Nat.id i Hi) in H. pose proof (str_nat_digits (Z.to_nat i) 45%nat) as K. rewrite H, Ej in K. specialize (K (or_introl eq_refl)). lia.
  - rewrite <- (Z2Nat.id i Hi), <- (Z2Nat.id j Hj) in H. apply str_nat_inj in H. lia.
Qed.

(** ** Concrete cases *)
Definition r_ex : result := {| r_index := 1; r_X := 3; r_Y := 12; r_Z := [0; 10]%nat; r_independent := Some true; r_G := 2; r_p := 1/2; r_DoF := 4 |}.
Example C57_nonvacuous :
  cX (report Plain true p_ex None r_ex) = Shown [51%nat] /\ cY (report WithDcMI false p_ex None r_ex) = Shown [49; 50]%nat /\
  cZ (report Plain false p_ex None r_ex) = Shown [123; 48; 44; 32; 49; 48; 125]%nat /\
  agree (report Plain true p_ex (Some true) r_ex) (report WithDcMI false p_ex (Some true) r_ex) /\
  (* the same variables for another reason: collisions outside column numbers *)
  represent (RInt (-1024)) = represent (RList []) /\ represent (RList [7]) = represent (RInt 7) /\ represent (RVariable (-1)) <> represent (RInt (-1)).
Proof.
  split; [reflexivity|]. split; [reflexivity|]. split; [reflexivity|]. split.
  - apply C57_equal_iff_agree. rewrite (report_same Plain WithDcMI true false p_ex (Some true) r_ex); [apply report_eq_self|left; reflexivity|right; left; discriminate].
  - split; [reflexivity|]. split; [reflexivity|]. discriminate.
Qed.
