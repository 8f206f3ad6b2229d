(** C74: the text of a test result, and what can be read back from it. *)
From Coq Require Import Reals Lra String.
From Verif Require Import Base Matrix_Model Sources_Model Select_Properties AD_Model AD_Examples GTest_Model GTest_Spec GTest_Properties CIResult_Model CIResult_Properties Render_Model Render_Spec Render_Proofs.
Open Scope nat_scope.
Set Warnings "-abstract-large-number".

Lemma truthy_iff b : truthy b = true <-> b = Some true.
Proof. destruct b as [[|]|]; cbn; split; intros H; congruence. Qed.

(** ** When a result can be printed *)
(** str() raises nothing but TypeError, and exactly if a variable is missing, if a number is missing in a
    result with enough samples, or if extra_info is a number *)
Theorem C74_when_it_fails : forall c d x,
  (forall e, str_result c d x = Err e -> e = TypeError) /\
  ((exists t, str_result c d x = Ok t) <->
   (exists X Y Zt, cX c = Shown X /\ cY c = Shown Y /\ cZ c = Shown Zt) /\ (~ too_few c -> has_values c) /\ (forall i, x <> IntInfo i)).
Proof.
  intros c d x. unfold too_few, has_values, str_result, render_sufficient, render_insufficient, render_head.
  destruct (codes c) as [sc ec]. unfold truthy. split.
  - intros e. destruct (cX c), (cY c), (cZ c); cbn [shown_text bind]; destruct (insufficient_samples c) as [[|]|]; cbn [negb bind]; try congruence;
      destruct (c_significance c), (statistic_value c), (p_value c); cbn [number_text bind]; try congruence; destruct x; congruence.
  - split.
    + intros [t H]. split; [|split].
      * destruct (cX c), (cY c), (cZ c); cbn [shown_text bind] in H; try (exfalso; destruct (insufficient_samples c) as [[|]|]; discriminate H). do 3 eexists. auto.
      * intros N. destruct (cX c), (cY c), (cZ c); cbn [shown_text bind] in H; try (exfalso; destruct (insufficient_samples c) as [[|]|]; discriminate H).
        destruct (insufficient_samples c) as [[|]|]; [congruence| |]; destruct (c_significance c), (statistic_value c), (p_value c); cbn [number_text bind negb] in H; try discriminate H; repeat split; discriminate.
      * intros i ->. destruct (if negb _ then _ else _); cbn [bind] in H; discriminate H.
    + intros ((X & Y & Zt & -> & -> & ->) & Hv & Hx). cbn [shown_text bind].
      destruct (insufficient_samples c) as [[|]|].
      * cbn [negb bind]. destruct x as [|u|i]; [eexists; reflexivity|eexists; reflexivity|exfalso; exact (Hx i eq_refl)].
      * destruct Hv as (H1 & H2 & H3); [discriminate|]. destruct (c_significance c), (statistic_value c), (p_value c); try congruence. cbn [negb number_text bind]. destruct x as [|u|i]; [eexists; reflexivity|eexists; reflexivity|exfalso; exact (Hx i eq_refl)].
      * destruct Hv as (H1 & H2 & H3); [discriminate|]. destruct (c_significance c), (statistic_value c), (p_value c); try congruence. cbn [negb number_text bind]. destruct x as [|u|i]; [eexists; reflexivity|eexists; reflexivity|exfalso; exact (Hx i eq_refl)].
Qed.
(** a new result cannot be printed *)
Theorem C74_fresh_result : forall d x, str_result fresh_result d x = Err TypeError.
Proof. reflexivity. Qed.

(** ** The numbers *)
(** every number is printed rounded to the nearest decimal *)
Theorem C74_rounding : forall d f, d <> O -> approximates d f (fixed d f).
Proof. exact fixed_approximates. Qed.

(** ** The shape of a line *)
Definition head_text (c : ci_result) (X Y Zt : text) : text :=
  (str_int (index c) ++ lit ": " ++ pad_left 4 X ++ lit " " ++ [perp_sign] ++ lit " " ++ pad_right 4 Y ++ lit " | " ++ pad_right 20 Zt ++ lit ": ")%list.
Lemma head_eq c X Y Zt : cX c = Shown X -> cY c = Shown Y -> cZ c = Shown Zt -> render_head c = Ok (lit "CI test " ++ head_text c X Y Zt)%list.
Proof. intros EX EY EZ. unfold render_head. rewrite EX, EY, EZ. reflexivity. Qed.
Definition tail_sufficient (c : ci_result) (d s v p : float) : text :=
  (verdict_text c ++ lit " @ " ++ pad_left 6 (fixed 4 s) ++ lit " with " ++ plain_text (statistic c) ++ lit "=" ++ pad_left 8 (fixed 6 v) ++ lit " at p=" ++
   pad_right 8 (fixed 6 p) ++ lit " on " ++ plain_text (test_distribution c) ++ render_duration d ++ snd (codes c))%list.
Definition start (c : ci_result) : text := if truthy (insufficient_samples c) then YELLOW else fst (codes c).
Definition tail_insufficient (d : float) : text := (lit "INSUFFICIENT SAMPLES" ++ render_duration d ++ ENDC)%list.
Definition added (x : extra) : text := match x with TextInfo u => u | _ => [] end.
Lemma Ok_inj {A} (a b : A) : Ok a = Ok b -> a = b.
Proof. congruence. Qed.
Lemma line_shape c d x t : str_result c d x = Ok t ->
  exists X Y Zt body, cX c = Shown X /\ cY c = Shown Y /\ cZ c = Shown Zt /\
    t = (start c ++ lit "CI test " ++ head_text c X Y Zt ++ body ++ added x)%list /\
    (too_few c -> body = tail_insufficient d) /\
    (~ too_few c -> exists s v p, c_significance c = Some s /\ statistic_value c = Some v /\ p_value c = Some p /\ body = tail_sufficient c d s v p).
Proof.
  intros H. destruct (proj1 (proj2 (C74_when_it_fails c d x)) (ex_intro _ t H)) as ((X & Y & Zt & EX & EY & EZ) & Hv & Hx).
  exists X, Y, Zt. unfold str_result in H. unfold start, too_few.
  assert (Hadd : forall u, match x with NoInfo => Ok u | TextInfo t => Ok (u ++ t)%list | IntInfo _ => Err TypeError end = Ok t -> t = (u ++ added x)%list).
  { intros u E. destruct x; apply Ok_inj in E || discriminate E; subst t; cbn [added]; rewrite ?app_nil_r; reflexivity. }
  destruct (truthy (insufficient_samples c)) eqn:Et.
  - apply truthy_iff in Et. cbn [negb] in H. unfold render_insufficient in H. rewrite (head_eq c X Y Zt EX EY EZ) in H. cbn [bind] in H.
    exists (tail_insufficient d). do 3 (split; [assumption|]). split; [|split; [reflexivity|congruence]].
    apply Hadd in H. rewrite H. unfold tail_insufficient. rewrite <- !app_assoc. reflexivity.
  - assert (N : insufficient_samples c <> Some true) by (intros E; rewrite (proj2 (truthy_iff _) E) in Et; discriminate).
    destruct (Hv N) as (H1 & H2 & H3). cbn [negb] in H. unfold render_sufficient in H. rewrite (head_eq c X Y Zt EX EY EZ) in H.
    destruct (codes c) as [sc ec] eqn:Ec. destruct (c_significance c) as [s|]; [|congruence]. destruct (statistic_value c) as [v|]; [|congruence]. destruct (p_value c) as [p|]; [|congruence].
    cbn [bind number_text] in H. exists (tail_sufficient c d s v p). do 3 (split; [assumption|]).
    split; [|split; [congruence|intros _; exists s, v, p; auto]].
    apply Hadd in H. rewrite H. unfold tail_sufficient. rewrite Ec. cbn [fst snd]. rewrite <- !app_assoc. reflexivity.
Qed.

(** ** Reading a line back *)
Lemma lit_start u v (s1 s2 : text) : In s1 [[]; RED; YELLOW] -> In s2 [[]; RED; YELLOW] -> (s1 ++ lit "CI test " ++ u = s2 ++ lit "CI test " ++ v)%list -> s1 = s2 /\ u = v.
Proof.
  change (lit "CI test ") with [67; 73; 32; 116; 101; 115; 116; 32]. change YELLOW with [27; 91; 57; 51; 109]. change RED with [27; 91; 57; 49; 109].
  intros [<- |[<- |[<- |[]]]] [<- |[<- |[<- |[]]]] E; cbn [app] in E; try discriminate E; injection E as ->; auto.
Qed.
Lemma start_in c : In (start c) [[]; RED; YELLOW].
Proof. unfold start, codes. destruct (truthy _); [cbn; auto|]. destruct (accurate c) as [[|]|]; cbn; auto. Qed.
Lemma str_int_chars i c : In c (str_int i) -> c = 45 \/ 48 <= c <= 57.
Proof.
  unfold str_int. intros H. apply in_app_or in H as [H|H]; [destruct (_ <? _)%Z; [destruct H as [<- |[]]; auto|destruct H]|]. right. revert H. apply numeral_ok.
Qed.
Lemma perp_not_space : perp_sign <> 32.
Proof. apply Nat.eqb_neq. vm_compute. reflexivity. Qed.
Lemma clean_perp t : clean t -> ~ In perp_sign t.
Proof. intros [H _] Hin. apply H in Hin. destruct Hin as (_ & _ & _ & _ & _ & Hin & _). exact (Hin eq_refl). Qed.
Lemma head_inj c1 c2 X1 X2 Y1 Y2 Z1 Z2 u v : clean X1 -> clean X2 -> clean Y1 -> clean Y2 -> clean Z1 -> clean Z2 ->
  (head_text c1 X1 Y1 Z1 ++ u = head_text c2 X2 Y2 Z2 ++ v)%list -> index c1 = index c2 /\ X1 = X2 /\ Y1 = Y2 /\ Z1 = Z2 /\ u = v.
Proof.
  intros HX1 HX2 HY1 HY2 HZ1 HZ2 E. unfold head_text in E.
  change (lit ": ") with [58; 32] in E. change (lit " ") with [32] in E. change (lit " | ") with [32; 124; 32] in E.
  rewrite <- !app_assoc in E. cbn [app] in E.
  apply split_at in E as [Ei E]; [|intros H; apply str_int_chars in H; lia|intros H; apply str_int_chars in H; lia].
  injection E as E.
  apply (split_at2 32 perp_sign) in E as [EX E]; [| | |exact perp_not_space|exact perp_not_space].
  2, 3: intros H; apply in_pad_left in H as [H|H]; [exact (perp_not_space H)|eapply clean_perp; [|exact H]; assumption].
  injection E as E.
  apply (split_at2 32 124) in E as [EY E]; [| | |lia|lia].
  2, 3: intros H; apply in_pad_right in H as [H|H]; [lia|]; (apply (proj1 HY1) in H || apply (proj1 HY2) in H); lia.
  injection E as E. apply split_at in E as [EZ E].
  2, 3: intros H; apply in_pad_right in H as [H|H]; [lia|]; (apply (proj1 HZ1) in H || apply (proj1 HZ2) in H); lia.
  injection E as E.
  apply C57_integers_can_be_read_back in Ei. apply pad_left_inj in EX; [|apply HX1|apply HX2].
  apply pad_right_inj in EY; [|apply HY1|apply HY2]. apply pad_right_inj in EZ; [|apply HZ1|apply HZ2]. auto.
Qed.
Lemma fixed_no_lead d f u : fixed d f <> 32 :: u.
Proof. intros E. assert (H : In 32 (fixed d f)) by (rewrite E; left; reflexivity). apply fixed_chars in H. lia. Qed.
Lemma fixed_no_trail d f u : fixed d f <> (u ++ [32])%list.
Proof. intros E. assert (H : In 32 (fixed d f)) by (rewrite E; apply in_or_app; right; left; reflexivity). apply fixed_chars in H. lia. Qed.
Lemma delta_not_digit c : c <= 900 -> c <> delta_sign.
Proof. intros H ->. apply Nat.leb_le in H. vm_compute in H. discriminate. Qed.
Lemma duration_inj d1 d2 u v : (render_duration d1 ++ u = render_duration d2 ++ v)%list -> near 4 (Some d1) (Some d2) /\ u = v.
Proof.
  intros E. unfold render_duration in E. change (lit ", ") with [44; 32] in E. change (lit "t=") with [116; 61] in E. change (lit "s") with [115] in E.
  rewrite <- !app_assoc in E. cbn [app] in E. injection E as E.
  apply split_at in E as [E ->]; [|intros H; apply in_pad_left in H as [H|H]; [lia|apply fixed_chars in H; lia] ..].
  split; [|reflexivity]. apply pad_left_inj in E; [|apply fixed_no_lead|apply fixed_no_lead]. apply fixed_near; [discriminate|exact E].
Qed.
Lemma signs_differ : check_sign <> cross_sign /\ check_sign <> 32 /\ cross_sign <> 32.
Proof. repeat split; apply Nat.eqb_neq; vm_compute; reflexivity. Qed.
Lemma verdict_no_space c : ~ In 32 (verdict_text c).
Proof.
  unfold verdict_text. change (lit "I") with [73]. change (lit "D") with [68]. intros H. destruct signs_differ as (_ & N1 & N2).
  apply in_app_or in H as [H|H]; [destruct (truthy _); destruct H as [H|[]]; discriminate H|].
  destruct (accurate c) as [[|]|]; [destruct H as [H|[]]; exact (N1 H)|destruct H as [H|[]]; exact (N2 H)|destruct H].
Qed.
Lemma marks_inj (k x : nat) (N : k <> x) (i1 i2 : bool) (a1 a2 : option bool) :
  ((if i1 then [73] else [68]) ++ match a1 with None => [] | Some true => [k] | Some false => [x] end =
   (if i2 then [73] else [68]) ++ match a2 with None => [] | Some true => [k] | Some false => [x] end)%list -> i1 = i2 /\ a1 = a2.
Proof.
  destruct i1, i2; intros E; try (exfalso; injection E as E _; discriminate E); (split; [reflexivity|]); injection E as E;
    destruct a1 as [[|]|], a2 as [[|]|]; try reflexivity; exfalso; congruence.
Qed.
Lemma verdict_inj c1 c2 : verdict_text c1 = verdict_text c2 -> (says_independent c1 <-> says_independent c2) /\ accurate c1 = accurate c2.
Proof.
  intros E. destruct (marks_inj check_sign cross_sign (proj1 signs_differ) _ _ _ _ E) as [Ei Ea]. split; [|exact Ea].
  unfold says_independent. rewrite <- !truthy_iff, Ei. tauto.
Qed.
Lemma confirmed_iff c : (confirmed c <-> accurate c = Some true) /\ (contradicted c <-> accurate c = Some false).
Proof.
  unfold confirmed, contradicted, accurate. destruct (computed_d_separation c) as [d|]; [|split; split; [intros (d & E & _); discriminate|discriminate|intros (d & E & _); discriminate|discriminate]].
  destruct (independent c) as [i|].
  - split; split.
    + intros (d' & E & F). injection E as <-. injection F as ->. rewrite Bool.eqb_reflx. reflexivity.
    + intros E. injection E as E. apply Bool.eqb_prop in E as ->. exists d. auto.
    + intros (d' & E & F). injection E as <-. destruct (Bool.eqb i d) eqn:Eb; [apply Bool.eqb_prop in Eb as ->; congruence|reflexivity].
    + intros E. exists d. split; [reflexivity|]. intros F. injection F as ->. rewrite Bool.eqb_reflx in E. discriminate.
  - split; split; [intros (d' & E & F); discriminate|discriminate|reflexivity|]. intros _. exists d. split; [reflexivity|discriminate].
Qed.
Lemma plain_chars t c : (forall u, t = Some u -> clean u) -> In c (plain_text t) -> c <> 61 /\ c <> delta_sign /\ c <> 10 /\ c <> 27.
Proof.
  intros H Hin. destruct t as [u|]; cbn [plain_text] in Hin.
  - specialize (H u eq_refl). apply (proj1 H) in Hin. change delta_sign with 916. tauto.
  - change (lit "None") with [78; 111; 110; 101] in Hin. assert (c <= 120) by (cbn in Hin; intuition lia).
    split; [|split; [apply delta_not_digit; lia|]]; cbn in Hin; intuition lia.
Qed.
Lemma sufficient_inj c1 d1 s1 v1 p1 u c2 d2 s2 v2 p2 v : well_named c1 -> well_named c2 -> snd (codes c1) = snd (codes c2) ->
  (tail_sufficient c1 d1 s1 v1 p1 ++ u = tail_sufficient c2 d2 s2 v2 p2 ++ v)%list ->
  (says_independent c1 <-> says_independent c2) /\ accurate c1 = accurate c2 /\ near 4 (Some s1) (Some s2) /\ near 6 (Some v1) (Some v2) /\ near 6 (Some p1) (Some p2) /\
  near 4 (Some d1) (Some d2) /\ plain_text (statistic c1) = plain_text (statistic c2) /\ plain_text (test_distribution c1) = plain_text (test_distribution c2) /\ u = v.
Proof.
  intros (_ & Hs1 & Ht1) (_ & Hs2 & Ht2) Ec E. unfold tail_sufficient in E. rewrite <- !app_assoc in E.
  remember (render_duration d1 ++ snd (codes c1) ++ u)%list as R1 eqn:ER1. remember (render_duration d2 ++ snd (codes c2) ++ v)%list as R2 eqn:ER2.
  change (lit " @ ") with [32; 64; 32] in E. change (lit " with ") with [32; 119; 105; 116; 104; 32] in E. change (lit "=") with [61] in E.
  change (lit " at p=") with ([32; 97; 116; 32; 112] ++ [61])%list in E. change (lit " on ") with [32; 111; 110; 32] in E. rewrite <- !app_assoc in E. cbn [app] in E.
  apply split_at in E as [Ev E]; [|apply verdict_no_space ..]. injection E as E.
  apply (split_at2 32 119) in E as [Es E]; [| intros H; apply in_pad_left in H as [H|H]; [lia|apply fixed_chars in H; lia] .. |lia|lia].
  injection E as E. apply split_at in E as [Est E]; [|intros H; apply plain_chars in H; [lia|assumption] ..].
  match type of E with (?a ++ 32 :: 97 :: 116 :: 32 :: 112 :: 61 :: ?r = ?b ++ 32 :: 97 :: 116 :: 32 :: 112 :: 61 :: ?r')%list =>
    change (a ++ [32; 97; 116; 32; 112] ++ 61 :: r = b ++ [32; 97; 116; 32; 112] ++ 61 :: r')%list in E end.
  rewrite (app_assoc (pad_left 8 (fixed 6 v1))), (app_assoc (pad_left 8 (fixed 6 v2))) in E.
  apply split_at in E as [Evv E]; [|intros H; apply in_app_or in H as [H|H]; [apply in_pad_left in H as [H|H]; [lia|apply fixed_chars in H; lia]|cbn in H; intuition lia] ..].
  apply app_inv_tail in Evv.
  apply (split_at2 32 111) in E as [Ep E]; [| intros H; apply in_pad_right in H as [H|H]; [lia|apply fixed_chars in H; lia] .. |lia|lia].
  apply (app_inv_head [110; 32]) in E.
  assert (Hdur : forall d w, (render_duration d ++ w = [44; 32] ++ delta_sign :: lit "t=" ++ pad_left 10 (fixed 4 d) ++ lit "s" ++ w)%list).
  { intros d w. unfold render_duration. change (lit ", ") with [44; 32]. rewrite <- !app_assoc. reflexivity. }
  subst R1 R2. pose proof E as E'. rewrite !Hdur in E'. rewrite !(app_assoc (plain_text _)) in E'.
  apply split_at in E' as [Etd _]; [|intros H; apply in_app_or in H as [H|H]; [apply plain_chars in H; [tauto|assumption]|apply (delta_not_digit delta_sign); [cbn in H; intuition lia|reflexivity]] ..].
  apply app_inv_tail in Etd. rewrite Etd in E. apply app_inv_head in E. apply duration_inj in E as [Hd E]. rewrite Ec in E. apply app_inv_head in E.
  destruct (verdict_inj c1 c2 Ev) as [Hi Ha].
  split; [exact Hi|]. split; [exact Ha|].
  split; [apply fixed_near; [discriminate|apply pad_left_inj in Es; [exact Es|apply fixed_no_lead|apply fixed_no_lead]]|].
  split; [apply fixed_near; [discriminate|apply pad_left_inj in Evv; [exact Evv|apply fixed_no_lead|apply fixed_no_lead]]|].
  split; [apply fixed_near; [discriminate|apply pad_right_inj in Ep; [exact Ep|apply fixed_no_trail|apply fixed_no_trail]]|]. auto.
Qed.
Lemma codes_start c : ~ too_few c -> snd (codes c) = match start c with [] => [] | _ => ENDC end /\ (start c = YELLOW -> False).
Proof.
  unfold too_few, start. intros N. destruct (truthy (insufficient_samples c)) eqn:Et; [apply truthy_iff in Et; contradiction|].
  unfold codes. destruct (accurate c) as [[|]|]; cbn [fst snd]; (split; [reflexivity|]); intros E; discriminate E.
Qed.
Lemma too_few_start c : too_few c -> start c = YELLOW.
Proof. unfold too_few, start. intros E. rewrite (proj2 (truthy_iff _) E). reflexivity. Qed.
Lemma too_few_dec c : too_few c \/ ~ too_few c.
Proof. unfold too_few. destruct (insufficient_samples c) as [[|]|]; [left; reflexivity|right; discriminate|right; discriminate]. Qed.

(** Results with the same text tell the same story: the same test (number, variables, order of the
    conditioning variables), the same verdict and the same agreement with the source network, numbers that
    differ by at most one unit of the last digit, the same extra information. *)
Theorem C74_can_be_read_back : forall a da xa b db xb t, well_named a -> well_named b ->
  str_result a da xa = Ok t -> str_result b db xb = Ok t -> same_story a da b db /\ added xa = added xb.
Proof.
  intros a da xa b db xb t Ha Hb Ea Eb. destruct (line_shape _ _ _ _ Ea) as (X1 & Y1 & Z1 & body1 & EX1 & EY1 & EZ1 & Et & Hf1 & Hs1).
  destruct (line_shape _ _ _ _ Eb) as (X2 & Y2 & Z2 & body2 & EX2 & EY2 & EZ2 & Et2 & Hf2 & Hs2). rewrite Et in Et2. clear Et.
  apply lit_start in Et2 as [Est E]; [|apply start_in|apply start_in].
  destruct Ha as ((X1' & Y1' & Z1' & FX1 & FY1 & FZ1 & CX1 & CY1 & CZ1) & Ha). destruct Hb as ((X2' & Y2' & Z2' & FX2 & FY2 & FZ2 & CX2 & CY2 & CZ2) & Hb).
  rewrite EX1 in FX1. rewrite EY1 in FY1. rewrite EZ1 in FZ1. rewrite EX2 in FX2. rewrite EY2 in FY2. rewrite EZ2 in FZ2.
  injection FX1 as <-. injection FY1 as <-. injection FZ1 as <-. injection FX2 as <-. injection FY2 as <-. injection FZ2 as <-.
  apply head_inj in E as (Ei & -> & -> & -> & E); [|assumption ..]. unfold same_story. rewrite EX1, EY1, EZ1, EX2, EY2, EZ2.
  assert (Hk : too_few a <-> too_few b).
  { split; intros H; [destruct (too_few_dec b) as [?|N]; [assumption|]; exfalso; apply (proj2 (codes_start b N)); rewrite <- Est; apply too_few_start, H
                     |destruct (too_few_dec a) as [?|N]; [assumption|]; exfalso; apply (proj2 (codes_start a N)); rewrite Est; apply too_few_start, H]. }
  destruct (too_few_dec a) as [H|N].
  - rewrite (Hf1 H), (Hf2 (proj1 Hk H)) in E. unfold tail_insufficient in E. rewrite <- !app_assoc in E. apply app_inv_head in E.
    apply duration_inj in E as [Hd E]. apply app_inv_head in E. split; [|exact E].
    split; [exact Ei|]. do 3 (split; [reflexivity|]). split; [exact Hk|]. split; [exact Hd|]. contradiction.
  - destruct (Hs1 N) as (s1 & v1 & p1 & Es1 & Ev1 & Ep1 & ->). destruct (Hs2 (fun H => N (proj2 Hk H))) as (s2 & v2 & p2 & Es2 & Ev2 & Ep2 & ->).
    apply sufficient_inj in E.
    + destruct E as (Hi & Hacc & Hs & Hv & Hp & Hd & _ & _ & E). split; [|exact E].
      split; [exact Ei|]. do 3 (split; [reflexivity|]). split; [exact Hk|]. split; [exact Hd|]. intros _.
      rewrite Es1, Ev1, Ep1, Es2, Ev2, Ep2. destruct (confirmed_iff a) as [C1 C2], (confirmed_iff b) as [C3 C4]. rewrite C1, C2, C3, C4, Hacc. tauto.
    + split; [|exact Ha]. exists X2, Y2, Z2. auto 10.
    + split; [|exact Hb]. exists X2, Y2, Z2. auto 10.
    + destruct (codes_start a N) as [-> _], (codes_start b (fun H => N (proj2 Hk H))) as [-> _]. rewrite Est. reflexivity.
Qed.

(** ** Colours *)
(** yellow: too few samples; red: contradicts the source network; otherwise no colour *)
Theorem C74_colour : forall c d x t, str_result c d x = Ok t ->
  ((exists u, t = [27; 91; 57; 51; 109] ++ u)%list <-> too_few c) /\
  ((exists u, t = [27; 91; 57; 49; 109] ++ u)%list <-> ~ too_few c /\ contradicted c) /\
  ((exists u, t = 27 :: u) <-> too_few c \/ contradicted c).
Proof.
  intros c d x t H. destruct (line_shape _ _ _ _ H) as (X & Y & Zt & body & _ & _ & _ & -> & _ & _).
  set (rest := (head_text c X Y Zt ++ body ++ added x)%list). clearbody rest.
  change (lit "CI test ") with [67; 73; 32; 116; 101; 115; 116; 32].
  unfold start, too_few. destruct (truthy (insufficient_samples c)) eqn:Et.
  - apply truthy_iff in Et. change YELLOW with [27; 91; 57; 51; 109]. cbn [app].
    split; [split; [intros _; exact Et|intros _; eexists; reflexivity]|]. split; [split; [intros [u E]; discriminate E|intros [N _]; contradiction]|].
    split; [intros _; left; exact Et|intros _; eexists; reflexivity].
  - assert (N : insufficient_samples c <> Some true) by (intros E; rewrite (proj2 (truthy_iff _) E) in Et; discriminate).
    destruct (confirmed_iff c) as [_ C]. rewrite C. unfold codes. destruct (accurate c) as [[|]|]; cbn [fst app].
    + split; [split; [intros [u E]; discriminate E|intros E; contradiction]|]. split; [split; [intros [u E]; discriminate E|intros [_ E]; discriminate E]|].
      split; [intros [u E]; discriminate E|intros [E|E]; [contradiction|discriminate E]].
    + change RED with [27; 91; 57; 49; 109]. cbn [app]. split; [split; [intros [u E]; discriminate E|intros E; contradiction]|].
      split; [split; [intros _; auto|intros _; eexists; reflexivity]|]. split; [intros _; right; reflexivity|intros _; eexists; reflexivity].
    + split; [split; [intros [u E]; discriminate E|intros E; contradiction]|]. split; [split; [intros [u E]; discriminate E|intros [_ E]; discriminate E]|].
      split; [intros [u E]; discriminate E|intros [E|E]; [contradiction|discriminate E]].
Qed.

(** ** A log of results *)
Lemma chars_ok k (t : text) : (forall c, In c t -> c <> k) -> ~ In k t.
Proof. intros H Hin. exact (H _ Hin eq_refl). Qed.
Lemma big_not_10 : perp_sign <> 10 /\ check_sign <> 10 /\ cross_sign <> 10 /\ delta_sign <> 10.
Proof. repeat split; apply Nat.eqb_neq; vm_compute; reflexivity. Qed.
Lemma lit_no_break s : existsb (Nat.eqb 10) (lit s) = false -> ~ In 10 (lit s).
Proof. intros H Hin. assert (existsb (Nat.eqb 10) (lit s) = true) by (apply existsb_exists; exists 10; auto). congruence. Qed.
(** without extra information a result is one line *)
Theorem C74_one_line : forall c d t, well_named c -> str_result c d NoInfo = Ok t -> ~ In 10 t.
Proof.
  intros c d t Hw H. destruct (line_shape _ _ _ _ H) as (X & Y & Zt & body & EX & EY & EZ & -> & Hf & Hs). cbn [added]. rewrite app_nil_r.
  destruct Hw as ((X' & Y' & Z' & FX & FY & FZ & CX & CY & CZ) & Hst & Htd). rewrite EX in FX. rewrite EY in FY. rewrite EZ in FZ. injection FX as <-. injection FY as <-. injection FZ as <-.
  destruct big_not_10 as (N1 & N2 & N3 & N4).
  assert (Hnum : forall w k f, ~ In 10 (pad_left w (fixed k f)) /\ ~ In 10 (pad_right w (fixed k f))).
  { intros w k f. split; intros Hin; [apply in_pad_left in Hin as [Hin|Hin]|apply in_pad_right in Hin as [Hin|Hin]]; try lia; apply fixed_chars in Hin; lia. }
  assert (Hdur : ~ In 10 (render_duration d)).
  { unfold render_duration. rewrite !in_app_iff. intros [Hin|[Hin|[Hin|[Hin|Hin]]]]; [revert Hin; apply lit_no_break; reflexivity|destruct Hin as [Hin|[]]; exact (N4 Hin)|revert Hin; apply lit_no_break; reflexivity|revert Hin; apply Hnum|revert Hin; apply lit_no_break; reflexivity]. }
  assert (Hcol : forall s, In s [[]; RED; YELLOW] -> ~ In 10 s) by (intros s [<- |[<- |[<- |[]]]]; vm_compute; intuition discriminate).
  assert (Hclean : forall s, clean s -> ~ In 10 s) by (intros s [Hc _] Hin; apply Hc in Hin; tauto).
  assert (Hhead : ~ In 10 (head_text c X Y Zt)).
  { unfold head_text. rewrite !in_app_iff.
    intros [Hin|[Hin|[Hin|[Hin|[Hin|[Hin|[Hin|[Hin|[Hin|Hin]]]]]]]]];
      try (revert Hin; apply lit_no_break; reflexivity);
      [apply str_int_chars in Hin; lia|apply in_pad_left in Hin as [Hin|Hin]; [lia|exact (Hclean _ CX Hin)]|destruct Hin as [Hin|[]]; exact (N1 Hin)
      |apply in_pad_right in Hin as [Hin|Hin]; [lia|exact (Hclean _ CY Hin)]|apply in_pad_right in Hin as [Hin|Hin]; [lia|exact (Hclean _ CZ Hin)]]. }
  rewrite !in_app_iff. intros [Hin|[Hin|[Hin|Hin]]]; [exact (Hcol _ (start_in c) Hin)|revert Hin; apply lit_no_break; reflexivity|exact (Hhead Hin)|].
  destruct (too_few_dec c) as [F|F].
  - rewrite (Hf F) in Hin. unfold tail_insufficient in Hin. rewrite !in_app_iff in Hin. destruct Hin as [Hin|[Hin|Hin]]; [revert Hin; apply lit_no_break; reflexivity|exact (Hdur Hin)|].
    vm_compute in Hin. intuition discriminate.
  - destruct (Hs F) as (s & v & p & _ & _ & _ & ->). unfold tail_sufficient in Hin. rewrite !in_app_iff in Hin.
    destruct Hin as [Hin|[Hin|[Hin|[Hin|[Hin|[Hin|[Hin|[Hin|[Hin|[Hin|[Hin|[Hin|Hin]]]]]]]]]]]]; try (revert Hin; apply lit_no_break; reflexivity); try (revert Hin; apply Hnum).
    + unfold verdict_text in Hin. apply in_app_or in Hin as [Hin|Hin]; [destruct (truthy _); revert Hin; apply lit_no_break; reflexivity|].
      destruct (accurate c) as [[|]|]; [destruct Hin as [Hin|[]]; exact (N2 Hin)|destruct Hin as [Hin|[]]; exact (N3 Hin)|destruct Hin].
    + apply plain_chars in Hin; [tauto|exact Hst].
    + apply plain_chars in Hin; [tauto|exact Htd].
    + exact (Hdur Hin).
    + unfold codes in Hin. destruct (accurate c) as [[|]|]; vm_compute in Hin; intuition discriminate.
Qed.
(** the colour is switched off at the end of the result, and only there: the text goes on with the extra
    information in the terminal's own colour *)
Theorem C74_colour_is_reset : forall c d t, str_result c d NoInfo = Ok t -> well_named c ->
  ((too_few c \/ contradicted c) -> exists u, t = (u ++ [27; 91; 48; 109])%list) /\
  (~ (too_few c \/ contradicted c) -> ~ In 27 t).
Proof.
  intros c d t H W. pose proof (proj2 (proj2 (C74_colour c d NoInfo t H))) as COL. destruct (line_shape _ _ _ _ H) as (X & Y & Zt & body & EX & EY & EZ & Et & B1 & B2).
  cbn [added] in Et. rewrite app_nil_r in Et. split.
  - intros C. destruct (too_few_dec c) as [F|F].
    + rewrite Et, (B1 F). unfold tail_insufficient. rewrite !app_assoc. exact (ex_intro _ _ eq_refl).
    + destruct C as [C|C]; [contradiction|]. destruct (B2 F) as (s & v & p & _ & _ & _ & Eb). rewrite Et, Eb. unfold tail_sufficient.
      unfold codes. rewrite (proj1 (proj2 (confirmed_iff c)) C). cbn [snd]. rewrite !app_assoc. exact (ex_intro _ _ eq_refl).
  - intros N. assert (F : ~ too_few c) by tauto. destruct (B2 F) as (s & v & p & _ & _ & _ & Eb). rewrite Et, Eb. clear Et Eb B1 B2 COL.
    assert (Ac : accurate c <> Some false) by (intros E; apply N; right; apply (proj2 (proj2 (confirmed_iff c)) E)).
    assert (Es : start c = []) by (unfold start, codes; destruct (truthy (insufficient_samples c)) eqn:E; [apply truthy_iff in E; contradiction|]; destruct (accurate c) as [[|]|]; [reflexivity|congruence|reflexivity]).
    assert (Ec : snd (codes c) = []) by (unfold codes; destruct (accurate c) as [[|]|]; [reflexivity|congruence|reflexivity]).
    rewrite Es. destruct W as [(X' & Y' & Z' & EX' & EY' & EZ' & cX' & cY' & cZ') [WS WD]].
    rewrite EX in EX'. rewrite EY in EY'. rewrite EZ in EZ'. injection EX' as <-. injection EY' as <-. injection EZ' as <-.
    assert (N1 : perp_sign <> 27) by (apply Nat.eqb_neq; vm_compute; reflexivity). assert (N2 : check_sign <> 27) by (apply Nat.eqb_neq; vm_compute; reflexivity). assert (N4 : delta_sign <> 27) by (apply Nat.eqb_neq; vm_compute; reflexivity).
    assert (LIT : forall w, existsb (Nat.eqb 27) (lit w) = false -> ~ In 27 (lit w)) by (intros w E Hin; assert (existsb (Nat.eqb 27) (lit w) = true) by (apply existsb_exists; exists 27; auto); congruence).
    assert (Hnum : forall w k f, ~ In 27 (pad_left w (fixed k f)) /\ ~ In 27 (pad_right w (fixed k f))).
    { intros w k f. split; intros Hin; [apply in_pad_left in Hin as [Hin|Hin]|apply in_pad_right in Hin as [Hin|Hin]]; try lia; apply fixed_chars in Hin; lia. }
    assert (Hdur : ~ In 27 (render_duration d)).
    { unfold render_duration. rewrite !in_app_iff. intros [Hin|[Hin|[Hin|[Hin|Hin]]]]; [revert Hin; apply LIT; reflexivity|destruct Hin as [Hin|[]]; exact (N4 Hin)|revert Hin; apply LIT; reflexivity|revert Hin; apply Hnum|revert Hin; apply LIT; reflexivity]. }
    assert (Hclean : forall w, clean w -> ~ In 27 w) by (intros w [Hc _] Hin; apply Hc in Hin; tauto).
    assert (Hhead : ~ In 27 (head_text c X Y Zt)).
    { unfold head_text. rewrite !in_app_iff.
      intros [Hin|[Hin|[Hin|[Hin|[Hin|[Hin|[Hin|[Hin|[Hin|Hin]]]]]]]]];
        try (revert Hin; apply LIT; reflexivity);
        [apply str_int_chars in Hin; lia|apply in_pad_left in Hin as [Hin|Hin]; [lia|exact (Hclean _ cX' Hin)]|destruct Hin as [Hin|[]]; exact (N1 Hin)
        |apply in_pad_right in Hin as [Hin|Hin]; [lia|exact (Hclean _ cY' Hin)]|apply in_pad_right in Hin as [Hin|Hin]; [lia|exact (Hclean _ cZ' Hin)]]. }
    rewrite !in_app_iff. intros [Hin|[Hin|[Hin|Hin]]]; [exact Hin|revert Hin; apply LIT; reflexivity|exact (Hhead Hin)|].
    unfold tail_sufficient in Hin. rewrite Ec, !in_app_iff in Hin.
    destruct Hin as [Hin|[Hin|[Hin|[Hin|[Hin|[Hin|[Hin|[Hin|[Hin|[Hin|[Hin|[Hin|Hin]]]]]]]]]]]]; try (revert Hin; apply LIT; reflexivity); try (revert Hin; apply Hnum).
    + unfold verdict_text in Hin. apply in_app_or in Hin as [Hin|Hin]; [destruct (truthy _); revert Hin; apply LIT; reflexivity|].
      destruct (accurate c) as [[|]|]; [destruct Hin as [Hin|[]]; exact (N2 Hin)|congruence|destruct Hin].
    + apply plain_chars in Hin; [tauto|exact WS].
    + apply plain_chars in Hin; [tauto|exact WD].
    + exact (Hdur Hin).
    + exact Hin.
Qed.

(** the names of the statistic and of the distribution are in the text (a missing one as None) *)
Theorem C74_names_shown : forall c d x t, str_result c d x = Ok t -> ~ too_few c ->
  let name o := match o with Some n => n | None => [78; 111; 110; 101] end in
  (exists u v, t = u ++ [32; 119; 105; 116; 104; 32] ++ name (statistic c) ++ 61 :: v)%list /\
  (exists u v, t = u ++ [32; 111; 110; 32] ++ name (test_distribution c) ++ 44 :: v)%list.
Proof.
  intros c d x t H F name. destruct (line_shape _ _ _ _ H) as (X & Y & Zt & body & EX & EY & EZ & Et & _ & B2).
  destruct (B2 F) as (s & v & p & _ & _ & _ & Eb). rewrite Et, Eb. unfold tail_sufficient, render_duration.
  assert (PN : forall o, plain_text o = name o) by (intros [u|]; reflexivity). rewrite (PN (statistic c)), (PN (test_distribution c)).
  change (lit " with ") with [32; 119; 105; 116; 104; 32]. change (lit " on ") with [32; 111; 110; 32]. change (lit "=") with [61]. change (lit ", ") with [44; 32].
  clear. change (list nat) with text. generalize (start c) (lit "CI test ") (head_text c X Y Zt) (verdict_text c) (lit " @ ") (pad_left 6 (fixed 4 s)) (name (statistic c)) (pad_left 8 (fixed 6 v))
    (lit " at p=") (pad_right 8 (fixed 6 p)) (name (test_distribution c)) (lit "t=") (pad_left 10 (fixed 4 d)) (lit "s") (snd (codes c)) (added x) delta_sign.
  intros s0 l0 h vt la sg st va lp pv td lt du ls cs ad ds.
  change ([44; 32])%list with ([44] ++ [32])%list. set (w := [32; 119; 105; 116; 104; 32]). set (o := [32; 111; 110; 32]). clearbody w o. split.
  - exists (s0 ++ l0 ++ h ++ vt ++ la ++ sg)%list, (va ++ lp ++ pv ++ o ++ td ++ [44] ++ [32] ++ [ds] ++ lt ++ du ++ ls ++ cs ++ ad)%list.
    rewrite <- !app_assoc. reflexivity.
  - exists (s0 ++ l0 ++ h ++ vt ++ la ++ sg ++ w ++ st ++ [61] ++ va ++ lp ++ pv)%list, ([32] ++ [ds] ++ lt ++ du ++ ls ++ cs ++ ad)%list.
    rewrite <- !app_assoc. reflexivity.
Qed.

(** so the printed log of a sequence of tests determines the sequence *)
Theorem C74_log_can_be_read_back : forall l1 l2 T, Forall (fun x => well_named (fst x)) l1 -> Forall (fun x => well_named (fst x)) l2 ->
  print_results l1 = Ok T -> print_results l2 = Ok T -> Forall2 (fun x y => same_story (fst x) (snd x) (fst y) (snd y)) l1 l2.
Proof.
  induction l1 as [|[a da] l1 IH]; intros [|[b db] l2] T H1 H2 E1 E2.
  - constructor.
  - exfalso. cbn [print_results] in *. apply Ok_inj in E1. subst T. destruct (str_result b db NoInfo) as [t|]; [|discriminate]. cbn [bind] in E2. destruct (print_results l2); [|discriminate]. cbn [bind] in E2. apply Ok_inj in E2. exact (app_cons_not_nil _ _ _ (eq_sym E2)).
  - exfalso. cbn [print_results] in *. apply Ok_inj in E2. subst T. destruct (str_result a da NoInfo) as [t|]; [|discriminate]. cbn [bind] in E1. destruct (print_results l1); [|discriminate]. cbn [bind] in E1. apply Ok_inj in E1. exact (app_cons_not_nil _ _ _ (eq_sym E1)).
  - cbn [print_results] in *. inversion H1 as [|? ? Ha H1']; subst. inversion H2 as [|? ? Hb H2']; subst. cbn [fst] in Ha, Hb.
    destruct (str_result a da NoInfo) as [t1|] eqn:S1; [|discriminate]. destruct (str_result b db NoInfo) as [t2|] eqn:S2; [|discriminate]. cbn [bind] in E1, E2.
    destruct (print_results l1) as [T1|] eqn:P1; [|discriminate]. destruct (print_results l2) as [T2|] eqn:P2; [|discriminate]. cbn [bind] in E1, E2.
    apply Ok_inj in E1. apply Ok_inj in E2. rewrite <- E1 in E2. apply split_at in E2 as [E2 E3]; [|first [exact (C74_one_line _ _ _ Ha S1) | exact (C74_one_line _ _ _ Hb S2)]|first [exact (C74_one_line _ _ _ Ha S1) | exact (C74_one_line _ _ _ Hb S2)]].
    subst t2 T2. constructor; [|eapply IH; eauto]. cbn [fst snd]. exact (proj1 (C74_can_be_read_back _ _ _ _ _ _ _ Ha Hb S1 S2)).
Qed.

(** ** Columns *)
(** If the names fit, the verdict is at the same place of every line (counting from the end of the colour
    code, and for numbers with as many digits) *)
Theorem C74_columns : forall c d x t X Y Zt, str_result c d x = Ok t -> cX c = Shown X -> cY c = Shown Y -> cZ c = Shown Zt ->
  length X <= 4 -> length Y <= 4 -> length Zt <= 20 ->
  forall o, (too_few c \/ contradicted c -> o = 5) -> (~ (too_few c \/ contradicted c) -> o = 0) ->
  (too_few c \/ says_independent c -> nth_error t (o + length (str_int (index c)) + 46) = Some 73) /\
  (~ (too_few c \/ says_independent c) -> nth_error t (o + length (str_int (index c)) + 46) = Some 68).
Proof.
  intros c d x t X Y Zt H EX EY EZ LX LY LZ o Ho Ho'. destruct (line_shape _ _ _ _ H) as (X' & Y' & Z' & body & FX & FY & FZ & -> & Hf & Hs).
  rewrite EX in FX. rewrite EY in FY. rewrite EZ in FZ. injection FX as <-. injection FY as <-. injection FZ as <-.
  assert (Hl : length (start c ++ lit "CI test " ++ head_text c X Y Zt)%list = o + length (str_int (index c)) + 46).
  { rewrite !app_length. unfold head_text. rewrite !app_length, length_pad_left, !length_pad_right by assumption.
    change (length (lit "CI test ")) with 8. change (length (lit ": ")) with 2. change (length (lit " ")) with 1. change (length (lit " | ")) with 3. cbn [length].
    assert (Hc : length (start c) = o); [|lia]. destruct (too_few_dec c) as [F|F].
    - rewrite (too_few_start c F). rewrite Ho by auto. reflexivity.
    - unfold start. destruct (truthy (insufficient_samples c)) eqn:Et; [apply truthy_iff in Et; contradiction|].
      destruct (confirmed_iff c) as [_ C]. unfold codes. destruct (accurate c) as [[|]|] eqn:Ea; cbn [fst]; [rewrite Ho'; [reflexivity|]|rewrite Ho; [reflexivity|]|rewrite Ho'; [reflexivity|]];
        try (intros [?|G]; [contradiction|apply C in G; discriminate]). right. apply C. reflexivity. }
  rewrite <- Hl.
  assert (Hn : forall a r, body = a :: r -> nth_error (start c ++ lit "CI test " ++ head_text c X Y Zt ++ body ++ added x)%list (length (start c ++ lit "CI test " ++ head_text c X Y Zt)%list) = Some a).
  { intros a r ->. rewrite !(app_assoc (start c)), !(app_assoc (start c ++ lit "CI test ")), nth_error_app2 by lia. rewrite Nat.sub_diag. reflexivity. }
  destruct (too_few_dec c) as [F|F].
  - split; [intros _|intros N; exfalso; auto]. rewrite (Hn 73 (tl (tail_insufficient d))); [reflexivity|]. rewrite (Hf F). reflexivity.
  - destruct (Hs F) as (s & v & p & _ & _ & _ & Hb). unfold says_independent. rewrite <- truthy_iff. unfold tail_sufficient, verdict_text in Hb.
    change (lit "I") with [73] in Hb. change (lit "D") with [68] in Hb.
    split; intros G.
    + destruct G as [G|G]; [contradiction|]. rewrite G in Hb. rewrite <- !app_assoc in Hb. cbn [app] in Hb. exact (Hn _ _ Hb).
    + destruct (truthy (independent c)); [exfalso; auto|]. rewrite <- !app_assoc in Hb. cbn [app] in Hb. exact (Hn _ _ Hb).
Qed.

(** ** The results of the tests *)

(** ** The results of the tests *)
Definition named_char (c : nat) : Prop := c <> 10 /\ c <> 27 /\ c <> 58 /\ c <> 61 /\ c <> 124 /\ c <> 8869 /\ c <> 916.
Lemma small_char c : c <= 900 -> c <> 8869 /\ c <> 916.
Proof. intros H. split; [intros ->; apply Nat.leb_le in H; vm_compute in H; discriminate|lia]. Qed.
Lemma number_char c : c = 45 \/ (48 <= c <= 57) \/ c = 123 \/ c = 125 \/ c = 44 \/ c = 32 -> named_char c.
Proof. intros H. unfold named_char. destruct (small_char c) as [H1 H2]; [lia|]. repeat split; (lia || assumption). Qed.
Lemma str_int_clean i : clean (str_int i).
Proof.
  assert (H : forall c, In c (str_int i) -> c = 45 \/ 48 <= c <= 57) by apply str_int_chars.
  split; [|split].
  - intros c Hc. apply number_char. destruct (H c Hc); auto.
  - intros u E. specialize (H 32). rewrite E in H. specialize (H (or_introl eq_refl)). lia.
  - intros u E. specialize (H 32). rewrite E in H. specialize (H (in_or_app u [32] 32 (or_intror (or_introl eq_refl)))). lia.
Qed.
Lemma join_chars l c : In c (join_comma (map str_int l)) -> c = 45 \/ (48 <= c <= 57) \/ c = 44 \/ c = 32.
Proof.
  induction l as [|i l IH]; [intros []|]. destruct l as [|j l]; [intros H; apply str_int_chars in H; lia|].
  change (join_comma (map str_int (i :: j :: l))) with (str_int i ++ [44; 32] ++ join_comma (map str_int (j :: l)))%list. rewrite !in_app_iff.
  intros [H|[H|H]]; [apply str_int_chars in H; lia|cbn in H; lia|exact (IH H)].
Qed.
Lemma single_clean k : k <> 32 -> named_char k -> clean [k].
Proof.
  intros N H. split; [intros c [<- |[]]; exact H|]. split; intros u E; [congruence|]. destruct u as [|a [|b u]]; cbn in E; congruence.
Qed.
Lemma greek_char : named_char 937 /\ named_char 8709 /\ 8709 <> 32.
Proof. unfold named_char. repeat split; apply Nat.eqb_neq; vm_compute; reflexivity. Qed.
Lemma represent_list_clean l : clean (represent_list l).
Proof.
  destruct l as [|i [|j l]]; [apply (single_clean 937); [lia|apply greek_char]|apply str_int_clean|].
  change (represent_list (i :: j :: l)) with ([123] ++ join_comma (map str_int (i :: j :: l)) ++ [125])%list.
  split; [|split].
  - intros c Hc. apply number_char. rewrite !in_app_iff in Hc. destruct Hc as [[<- |[]]|[Hc|[<- |[]]]]; auto 6. apply join_chars in Hc. lia.
  - intros u E. discriminate E.
  - intros u E. rewrite app_assoc in E. apply app_inj_tail in E as [_ E]. discriminate E.
Qed.
(** every integer, list of integers, Omega, None or variable with an ID gets a clean name *)
Lemma represent_clean v : (forall t, v <> ROther t) -> clean (represent v).
Proof.
  intros H. destruct v as [| |ID|IDs|i|l|str]; cbn [represent].
  - apply (single_clean 8709); apply greek_char.
  - apply (single_clean 937); [lia|apply greek_char].
  - destruct (_ =? _)%Z; [apply (single_clean 937); [lia|apply greek_char]|apply str_int_clean].
  - apply represent_list_clean.
  - destruct (_ =? _)%Z; [|destruct (_ =? _)%Z; [apply (single_clean 937); [lia|apply greek_char]|apply str_int_clean]].
    unfold unnamed. split; [intros c Hc; destruct (small_char c) as [H1 H2]; [cbn in Hc; intuition lia|]; repeat split; try assumption; cbn in Hc; intuition lia|].
    split; intros u E; [discriminate E|]. apply (f_equal (@rev nat)) in E. rewrite rev_app_distr in E. discriminate E.
  - apply represent_list_clean.
  - exfalso. exact (H str eq_refl).
Qed.
Lemma named_report im omega p d r : well_named (report im omega p d r).
Proof.
  assert (HG : clean letter_G) by (apply single_clean; [lia|destruct (small_char 71); [lia|]; repeat split; (assumption || lia)]).
  assert (Hc2 : clean chi2_name).
  { unfold chi2_name. split; [intros c Hc; destruct (small_char c) as [H1 H2]; [cbn in Hc; intuition lia|]; repeat split; try assumption; cbn in Hc; intuition lia|].
    split; intros u E; [discriminate E|]. apply (f_equal (@rev nat)) in E. rewrite rev_app_distr in E. discriminate E. }
  assert (Hcol : forall c, clean (represent (passed_column im c))) by (intros c; apply represent_clean; destruct im; discriminate).
  assert (HZ : clean (represent (passed_Z im omega (r_Z r)))) by (apply represent_clean; destruct im; [destruct (r_Z r) as [|? [|? ?]]; [destruct omega| |]|..]; discriminate).
  unfold report. destruct (r_independent r) as [b|]; (split; [|split]).
  - exists (represent (passed_column im (r_X r))), (represent (passed_column im (r_Y r))), (represent (passed_Z im omega (r_Z r))). auto 10.
  - intros t E. injection E as <-. exact HG.
  - intros t E. injection E as <-. exact Hc2.
  - exists (represent (passed_column im (r_X r))), (represent (passed_column im (r_Y r))), (represent (passed_Z im omega (r_Z r))). auto 10.
  - intros t E. discriminate E.
  - intros t E. discriminate E.
Qed.
(** Every result that a G-test logs can be printed, on one line; *)
Theorem C74_gtest_results : forall im omega p dsep r duration, exists t,
  str_result (report im omega p dsep r) duration NoInfo = Ok t /\ ~ In 10 t.
Proof.
  intros im omega p dsep r duration.
  assert (H : exists t, str_result (report im omega p dsep r) duration NoInfo = Ok t).
  { apply C74_when_it_fails. destruct (named_report im omega p dsep r) as ((X & Y & Zt & EX & EY & EZ & _) & _). split; [exists X, Y, Zt; auto|]. split; [|discriminate].
    unfold too_few, report. destruct (r_independent r); [intros _; repeat split; discriminate|intros N; exfalso; apply N; reflexivity]. }
  destruct H as [t H]. exists t. split; [exact H|]. eapply C74_one_line; [|exact H]. apply named_report.
Qed.
(** and the log that is printed (by any implementation) tells which tests were made, in which order, what
    they answered, and their statistics and p-values to six digits. *)
Theorem C74_gtest_log : forall im1 im2 o1 o2 p1 p2 dsep1 dsep2 rs1 rs2 (dur1 dur2 : result -> float) T,
  let printed im o p dsep dur := fun r : result => (report im o p (dsep (r_X r) (r_Y r) (r_Z r)) r, dur r : float) in
  Forall (fun r => o1 = true \/ im1 <> Plain \/ r_Z r <> []) rs1 -> Forall (fun r => o2 = true \/ im2 <> Plain \/ r_Z r <> []) rs2 ->
  print_results (map (printed im1 o1 p1 dsep1 dur1) rs1) = Ok T -> print_results (map (printed im2 o2 p2 dsep2 dur2) rs2) = Ok T ->
  Forall2 (fun r1 r2 => r_index r1 = r_index r2 /\ r_X r1 = r_X r2 /\ r_Y r1 = r_Y r2 /\ r_Z r1 = r_Z r2 /\ r_independent r1 = r_independent r2 /\
             (r_independent r1 <> None -> (Rabs (r_G r1 - r_G r2) <= / 10 ^ 6)%R /\ (Rabs (r_p r1 - r_p r2) <= / 10 ^ 6)%R)) rs1 rs2.
Proof.
  intros im1 im2 o1 o2 p1 p2 dsep1 dsep2 rs1 rs2 dur1 dur2 T printed H1 H2 E1 E2.
  assert (Hn : forall im o p dsep dur rs, Forall (fun x => well_named (fst x)) (map (printed im o p dsep dur) rs)).
  { intros. apply Forall_forall. intros x Hx. apply in_map_iff in Hx as (r & <- & _). apply named_report. }
  pose proof (C74_log_can_be_read_back _ _ T (Hn _ _ _ _ _ _) (Hn _ _ _ _ _ _) E1 E2) as H. clear E1 E2 Hn. revert rs2 H2 H.
  induction rs1 as [|r1 rs1 IH]; intros rs2 H2 H; destruct rs2 as [|r2 rs2]; cbn [map] in H; inversion H as [|? ? ? ? Hs Ht]; subst; [constructor|].
  inversion H1 as [|? ? Hz1 H1']; subst. inversion H2 as [|? ? Hz2 H2']; subst. constructor; [|exact (IH H1' _ H2' Ht)].
  unfold printed in Hs. cbn [fst snd] in Hs. destruct Hs as (Hi & HX & HY & HZ & Hf & _ & Hv).
  destruct (C57_what_a_result_says im1 o1 p1 (dsep1 (r_X r1) (r_Y r1) (r_Z r1)) r1 Hz1) as (A1 & A2 & _ & A3 & _ & A4 & A5 & A6 & _ & A7 & _).
  destruct (C57_what_a_result_says im2 o2 p2 (dsep2 (r_X r2) (r_Y r2) (r_Z r2)) r2 Hz2) as (B1 & B2 & _ & B3 & _ & B4 & B5 & B6 & _ & B7 & _).
  unfold too_few, says_independent in *.
  rewrite A1, B1 in Hi. rewrite A4, B4 in HX. rewrite A5, B5 in HY. rewrite A6, B6 in HZ. rewrite A2, B2 in Hv. rewrite A3, B3 in Hf.
  injection HX as HX. injection HY as HY. injection HZ as HZ. apply str_nat_inj in HX. apply str_nat_inj in HY. apply C57_columns_can_be_read_back in HZ.
  do 4 (split; [assumption|]). rewrite A3 in Hv. destruct (r_independent r1) as [b1|] eqn:I1.
  - destruct (r_independent r2) as [b2|] eqn:I2; [|exfalso; discriminate (proj2 Hf eq_refl)].
    destruct (Hv ltac:(discriminate)) as (Hind & _ & _ & _ & HG & Hp).
    destruct (A7 b1 eq_refl) as (_ & G1 & _ & P1 & _). destruct (B7 b2 eq_refl) as (_ & G2 & _ & P2 & _). rewrite G1, G2 in HG. rewrite P1, P2 in Hp.
    split; [|intros _; split; [exact HG|exact Hp]]. destruct b1, b2; try reflexivity; exfalso; [discriminate (proj1 Hind eq_refl)|discriminate (proj2 Hind eq_refl)].
  - destruct (r_independent r2) as [b2|] eqn:I2; [exfalso; discriminate (proj1 Hf eq_refl)|]. split; [reflexivity|congruence].
Qed.
(** The results of the d-separation tests carry a number as extra information: once they have been returned,
    they cannot be printed any more (while a test with 'ci_test_debug' prints them before); and they always
    confirm the network they were taken from. *)
Lemma named_dsep position X Y Zs b : well_named (dsep_report position X Y Zs b).
Proof.
  assert (Hn : clean none_name).
  { unfold none_name. change (lit "None") with [78; 111; 110; 101]. split; [intros c Hc; destruct (small_char c) as [H1 H2]; [cbn in Hc; intuition lia|]; repeat split; try assumption; cbn in Hc; intuition lia|].
    split; intros u E; [discriminate E|]. apply (f_equal (@rev nat)) in E. rewrite rev_app_distr in E. discriminate E. }
  split; [|split].
  - exists (represent (RInt (Z.of_nat X))), (represent (RInt (Z.of_nat Y))), (represent (RList (map Z.of_nat Zs))).
    do 3 (split; [reflexivity|]). split; [|split]; apply represent_clean; discriminate.
  - intros t E. injection E as <-. exact Hn.
  - intros t E. injection E as <-. exact Hn.
Qed.
Theorem C74_dsep_results : forall position X Y Zs b duration k,
  let c := dsep_report position X Y Zs b in
  (exists t, str_result c duration NoInfo = Ok t /\ ~ In 10 t) /\
  (str_result c duration (dsep_extra k) = Err TypeError <-> k = AsTest \/ k = AsHeuristic) /\ confirmed c.
Proof.
  intros position X Y Zs b duration k c.
  assert (H : exists t, str_result c duration NoInfo = Ok t).
  { apply C74_when_it_fails. destruct (named_dsep position X Y Zs b) as ((X' & Y' & Zt & EX & EY & EZ & _) & _). split; [exists X', Y', Zt; auto|]. split; [|discriminate].
    intros _; repeat split; discriminate. }
  destruct H as [t H]. split; [exists t; split; [exact H|]; eapply C74_one_line; [|exact H]; apply named_dsep|]. split; [|exists b; split; reflexivity].
  assert (Hi : forall i, str_result c duration (IntInfo i) = Err TypeError).
  { intros i. destruct (C74_when_it_fails c duration (IntInfo i)) as [He Ho]. destruct (str_result c duration (IntInfo i)) as [u|e] eqn:E; [|rewrite (He e eq_refl); reflexivity].
    exfalso. destruct (proj1 Ho (ex_intro _ u eq_refl)) as (_ & _ & N). exact (N i eq_refl). }
  destruct k; cbn [dsep_extra]; [split; [auto|intros _; apply Hi]|split; [auto|intros _; apply Hi]|].
  split; [intros E; rewrite H in E; discriminate|intros [E|E]; discriminate].
Qed.

(** ** A concrete case *)
Lemma round_0 : round_even 0 = 0%Z.
Proof.
  assert (E : Int_part 0 = 0%Z).
  { pose proof (Int_part_bounds 0) as [H1 H2]. apply le_IZR in H1. assert (H3 : (IZR 0 < IZR (Int_part 0 + 1))%R) by (rewrite plus_IZR; exact H2). apply lt_IZR in H3. lia. }
  unfold round_even, frac_part. rewrite E. destruct (Rlt_dec _ _) as [L|N]; [reflexivity|lra].
Qed.
Lemma fixed_0 d : fixed d (Num 0) = ([48; 46] ++ zero_padded d 0)%list.
Proof.
  cbn [fixed]. rewrite Rabs_R0, Rmult_0_l, round_0. rewrite Zdiv_0_l, Zmod_0_l. destruct (Rlt_dec 0 0) as [L|_]; [lra|]. reflexivity.
Qed.
(** CI test 0:    3 (perp) 12   | {0, 10}             : I(check) @ 0.0000 with None=0.000000 at p=0.000000 on None, (delta)t=    0.0000s *)
Example C74_nonvacuous :
  str_result (dsep_report 0 3 12 [0; 10] true) (Num 0) NoInfo =
  Ok (lit "CI test 0:    3 " ++ [perp_sign] ++ lit " 12   | {0, 10}             : I" ++ [check_sign] ++ lit " @ 0.0000 with None=0.000000 at p=0.000000 on None, " ++ [delta_sign] ++ lit "t=    0.0000s")%list.
Proof.
  unfold str_result, render_sufficient, number_text, render_duration. cbn [dsep_report set_distribution set_statistic set_d_separation set_variables set_independent set_index c_significance statistic_value p_value insufficient_samples truthy negb].
  rewrite !fixed_0. reflexivity.
Qed.
Print Assumptions C74_gtest_log.
