(** What IPC-MB and IAMB return, read off the answers of the CI test. *)
From Verif Require Import Base MB_Model MB_Spec MB_Cache_Proofs MB_Log_Spec.

Lemma last_unique log x y r r' : last_answer log x y r -> last_answer log x y r' -> r = r'.
Proof.
  intros (b1 & e1 & a1 & E1 & A1 & S1 & N1) (b2 & e2 & a2 & E2 & A2 & S2 & N2). rewrite E1 in E2. clear E1 log.
  revert b2 E2. induction b1 as [|c b1 IH]; intros [|d b2] E2; cbn [app] in E2; injection E2 as H1 H2.
  - congruence.
  - subst a1. exfalso. apply (N1 e2); [apply in_or_app; right; left; reflexivity|assumption].
  - subst a2. exfalso. apply (N2 e1); [apply in_or_app; right; left; reflexivity|assumption].
  - eauto.
Qed.
Lemma last_app_right l1 l2 x y r : last_answer l2 x y r -> last_answer (l1 ++ l2) x y r.
Proof. intros (b & e & a & -> & H). exists (l1 ++ b), e, a. split; [rewrite app_assoc; reflexivity|assumption]. Qed.
Lemma last_app_left l1 l2 x y r : last_answer l1 x y r -> (forall e, In e l2 -> ~ about x y e) -> last_answer (l1 ++ l2) x y r.
Proof.
  intros (b & e & a & -> & H1 & H2 & H3) Hn. exists b, e, (a ++ l2). split; [rewrite <- app_assoc; reflexivity|]. split; [assumption|]. split; [assumption|].
  intros e' He. apply in_app_or in He as [He|He]; auto.
Qed.
Lemma about_sym x y e : about x y e <-> about y x e.
Proof. destruct e as [[[a b] Z] r]. unfold about. tauto. Qed.
Lemma last_sym log x y r : last_answer log x y r -> last_answer log y x r.
Proof. intros (b & e & a & E & H1 & H2 & H3). exists b, e, a. split; [assumption|]. split; [apply about_sym; assumption|]. split; [assumption|]. intros e' He. rewrite about_sym. auto. Qed.
Lemma last_all log x y r : (forall e, In e log -> about x y e -> says e = r) -> (exists e, In e log /\ about x y e) -> last_answer log x y r.
Proof.
  induction log as [|e0 log IH]; intros H (e & He & Ha); [destruct He|].
  assert (D : (exists e, In e log /\ about x y e) \/ forall e, In e log -> ~ about x y e).
  { clear. induction log as [|e log IH]; [right; intros e []|]. destruct e as [[[a b] Z] r]. destruct IH as [(e & H1 & H2)|IH]; [left; exists e; split; [right|]; assumption|].
    destruct (Nat.eq_dec a x) as [E1|E1], (Nat.eq_dec b y) as [E2|E2]; try (left; exists (a, b, Z, r); split; [left; reflexivity|left; split; assumption]);
    destruct (Nat.eq_dec a y) as [E3|E3], (Nat.eq_dec b x) as [E4|E4]; try (left; exists (a, b, Z, r); split; [left; reflexivity|right; split; assumption]);
    (right; intros e [<- |He]; [unfold about; tauto|auto]). }
  destruct D as [D|D].
  - change (e0 :: log) with ([e0] ++ log). apply last_app_right, IH; [|assumption]. intros e' He'. apply H. right; assumption.
  - destruct He as [<- |He]; [|exfalso; apply (D e); assumption]. exists [], e0, log. split; [reflexivity|]. split; [assumption|]. split; [apply H; [left; reflexivity|assumption]|assumption].
Qed.

Section Log.
  Context {St : Type}.
  Variable ci : St -> nat -> nat -> list nat -> res bool * St.
  Variable L : St -> list answered.
  Hypothesis HL : keeps_log ci L.
  Variable iter : St -> list nat -> list nat.
  Hypothesis Hit : iterates iter.
  Notation bad r := (r <> Ok false).

  Lemma rec_eq st x y Z : exists r st', ci st x y Z = (r, st') /\ ((forall e, r = Err e -> e = InsufficientSamples) -> L st' = L st ++ [(x, y, Z, r)]).
  Proof. destruct (ci st x y Z) as [r st'] eqn:E. exists r, st'. split; [reflexivity|apply HL; assumption]. Qed.
  Lemma normal_true e : Ok true = Err e -> e = InsufficientSamples. Proof. discriminate. Qed.
  Lemma normal_false e : Ok false = Err e -> e = InsufficientSamples. Proof. discriminate. Qed.
  Lemma normal_ins e : @Err bool InsufficientSamples = Err e -> e = InsufficientSamples. Proof. congruence. Qed.

  (** ** IPC-MB *)
  Lemma try_log T X : forall Zs non c st non' c' st', try_cutsets ci T X Zs non c st = Ok (non', c', st') ->
    exists new, L st' = L st ++ new /\ (forall a b Z r, In (a, b, Z, r) new -> a = X /\ b = T /\ In Z Zs) /\
      (non' = true <-> non = true \/ exists Z r, In (X, T, Z, r) new /\ bad r) /\
      (Zs <> [] -> new <> []) /\
      (non = false -> non' = true -> (forall a b Z r, In (a, b, Z, r) new -> r <> Err InsufficientSamples) -> exists b Z, new = b ++ [(X, T, Z, Ok true)]).
  Proof.
    induction Zs as [|Z Zs IH]; intros non c st non' c' st' H.
    { cbn [try_cutsets] in H. injection H as <- <- <-. exists []. split; [symmetry; apply app_nil_r|]. split; [intros a b Z r []|]. split; [split; [auto|intros [H|(Z & r & [] & _)]; assumption]|].
      split; [congruence|intros ->; discriminate]. }
    cbn [try_cutsets] in H. destruct (rec_eq st X T Z) as (r & st1 & E1 & Q0). rewrite E1 in H.
    destruct r as [[|]|e].
    - injection H as <- <- <-. exists [(X, T, Z, Ok true)]. split; [apply Q0, normal_true|]. split; [intros a b Z' r [H|[]]; injection H as <- <- <- <-; split; [reflexivity|split; [reflexivity|left; reflexivity]]|].
      split; [split; [intros _; right; exists Z, (Ok true); split; [left; reflexivity|discriminate]|reflexivity]|]. split; [discriminate|]. intros _ _ _. exists [], Z. reflexivity.
    - destruct (IH _ _ _ _ _ _ H) as (new & Q & H1 & H2 & H3 & H4). exists ((X, T, Z, Ok false) :: new). split; [rewrite Q, (Q0 normal_false), <- app_assoc; reflexivity|].
      split. { intros a b Z' r [H'|H']; [injection H' as <- <- <- <-; split; [reflexivity|split; [reflexivity|left; reflexivity]]|]. destruct (H1 _ _ _ _ H') as (? & ? & ?). split; [assumption|split; [assumption|right; assumption]]. }
      split. { rewrite H2. split; intros [H'|(Z' & r & Hin & Hb)]; try (left; assumption); right; exists Z', r; (split; [|assumption]); [right; assumption|]. destruct Hin as [Hin|Hin]; [injection Hin as _ <-; congruence|assumption]. }
      split; [discriminate|]. intros Hn Hn' Hi. destruct (H4 Hn Hn') as (b & Z' & ->); [intros a b Z' r Hin; eapply Hi; right; eassumption|]. exists ((X, T, Z, Ok false) :: b), Z'. reflexivity.
    - destruct e; try discriminate. destruct (IH _ _ _ _ _ _ H) as (new & Q & H1 & H2 & H3 & H4). exists ((X, T, Z, Err InsufficientSamples) :: new). split; [rewrite Q, (Q0 normal_ins), <- app_assoc; reflexivity|].
      split. { intros a b Z' r [H'|H']; [injection H' as <- <- <- <-; split; [reflexivity|split; [reflexivity|left; reflexivity]]|]. destruct (H1 _ _ _ _ H') as (? & ? & ?). split; [assumption|split; [assumption|right; assumption]]. }
      split. { split; [|intros _; apply H2; left; reflexivity]. intros _. right. exists Z, (Err InsufficientSamples). split; [left; reflexivity|discriminate]. }
      split; [discriminate|]. intros Hn Hn' Hi. exfalso. eapply Hi; [left; reflexivity|reflexivity].
  Qed.

  Lemma combos0 (l : list nat) : combinations 0 l = [[]]. Proof. destruct l; reflexivity. Qed.

  Lemma round_log T Adj cut : forall Xs NonPC c st NonPC' c' st', pc_round ci iter T Adj Xs cut NonPC c st = Ok (NonPC', c', st') ->
    exists new, L st' = L st ++ new /\ (forall a b Z r, In (a, b, Z, r) new -> In a Xs /\ b = T) /\
      (forall X, In X NonPC' <-> In X NonPC \/ exists Z r, In (X, T, Z, r) new /\ bad r) /\
      (cut = 0 -> forall X, In X Xs -> exists Z r, In (X, T, Z, r) new) /\
      (NoDup Xs -> (forall a b Z r, In (a, b, Z, r) new -> r <> Err InsufficientSamples) -> forall X, In X NonPC' -> In X NonPC \/
         exists l1 Z l2, new = l1 ++ (X, T, Z, Ok true) :: l2 /\ forall b Z r, ~ In (X, b, Z, r) l2).
  Proof.
    induction Xs as [|X Xs IH]; intros NonPC c st NonPC' c' st' H.
    { cbn [pc_round] in H. injection H as <- <- <-. exists []. split; [symmetry; apply app_nil_r|]. split; [intros a b Z r []|]. split; [intros X; split; [auto|intros [H|(Z & r & [] & _)]; assumption]|]. split; [intros _ X []|]. auto. }
    cbn [pc_round] in H. destruct (try_cutsets ci T X _ false c st) as [[[non c1] st1]|e] eqn:E; cbn [bind] in H; [|discriminate].
    destruct (try_log _ _ _ _ _ _ _ _ _ E) as (n1 & Q1 & A1 & A2 & A3 & A4). destruct (IH _ _ _ _ _ _ H) as (n2 & Q2 & B1 & B2 & B3 & B4).
    exists (n1 ++ n2). split; [rewrite Q2, Q1; symmetry; apply app_assoc|]. split.
    { intros a b Z r Hin. apply in_app_or in Hin as [Hin|Hin]; [destruct (A1 _ _ _ _ Hin) as (-> & -> & _); split; [left|]; reflexivity|]. destruct (B1 _ _ _ _ Hin) as (? & ?). split; [right|]; assumption. }
    assert (Hnon : forall Y, In Y (if non then set_add X NonPC else NonPC) <-> In Y NonPC \/ exists Z r, In (Y, T, Z, r) n1 /\ bad r).
    { intros Y. destruct non; rewrite ?add_in.
      - split.
        + intros [-> |Hy]; [|left; assumption]. right. destruct (proj1 A2 eq_refl) as [Hf|Hf]; [discriminate|exact Hf].
        + intros [Hy|(Z & r & Hin & Hb)]; [right; assumption|]. left. destruct (A1 _ _ _ _ Hin) as (-> & _). reflexivity.
      - split; [auto|]. intros [Hy|(Z & r & Hin & Hb)]; [assumption|]. exfalso. destruct (A1 _ _ _ _ Hin) as (-> & _). enough (false = true) by discriminate. apply A2. right. eauto. }
    split.
    { intros Y. rewrite B2, Hnon. split.
      - intros [[Hy|(Z & r & Hin & Hb)]|(Z & r & Hin & Hb)]; [left; assumption|right; exists Z, r; split; [apply in_or_app; left|]; assumption|right; exists Z, r; split; [apply in_or_app; right|]; assumption].
      - intros [Hy|(Z & r & Hin & Hb)]; [auto|]. apply in_app_or in Hin as [Hin|Hin]; [left; right; eauto|right; eauto]. }
    split.
    { intros Hc Y [<- |Hy].
      - rewrite Hc, combos0 in A3. destruct n1 as [|[[[a b] Z] r] n1]; [exfalso; apply A3; [discriminate|reflexivity]|]. destruct (A1 _ _ _ _ (or_introl eq_refl)) as (-> & -> & _). exists Z, r. left; reflexivity.
      - destruct (B3 Hc Y Hy) as (Z & r & Hin). exists Z, r. apply in_or_app; right; assumption. }
    intros HN Hi Y HY. inversion HN as [|? ? HX HN']; subst. assert (Hi1 : forall a b Z r, In (a, b, Z, r) n1 -> r <> Err InsufficientSamples) by (intros a b Z r Hin; apply (Hi a b Z r), in_or_app; left; assumption).
    assert (Hi2 : forall a b Z r, In (a, b, Z, r) n2 -> r <> Err InsufficientSamples) by (intros a b Z r Hin; apply (Hi a b Z r), in_or_app; right; assumption).
    destruct (B4 HN' Hi2 Y HY) as [Hy|(l1 & Z & l2 & -> & Hl)].
    - apply Hnon in Hy as [Hy|(Z & r & Hin & Hb)]; [left; assumption|]. right. destruct (A1 _ _ _ _ Hin) as (-> & _). destruct (A4 eq_refl) as (b & Z' & ->); [apply A2; right; eauto|assumption|].
      exists b, Z', n2. split; [rewrite <- app_assoc; reflexivity|]. intros b' Z'' r' Hin'. apply HX. apply (B1 _ _ _ _ Hin').
    - right. exists (n1 ++ l1), Z, l2. split; [rewrite <- app_assoc; reflexivity|assumption].
  Qed.

  Lemma recognize_log T : forall fuel Adj cut c st PC c' st', NoDup Adj -> recognize_loop ci iter fuel T Adj cut c st = Ok (PC, c', st') ->
    exists new, L st' = L st ++ new /\ (forall a b Z r, In (a, b, Z, r) new -> In a Adj /\ b = T) /\ NoDup PC /\
      (forall X, In X PC <-> In X Adj /\ forall Z r, In (X, T, Z, r) new -> r = Ok false) /\
      (cut = 0 -> forall X, In X Adj -> exists Z r, In (X, T, Z, r) new) /\
      ((forall a b Z r, In (a, b, Z, r) new -> r <> Err InsufficientSamples) -> forall X, In X Adj -> ~ In X PC ->
         exists l1 Z l2, new = l1 ++ (X, T, Z, Ok true) :: l2 /\ forall b Z r, ~ In (X, b, Z, r) l2).
  Proof.
    induction fuel as [|fuel IH]; intros Adj cut c st PC c' st' HNA H; [discriminate|]. cbn [recognize_loop] in H.
    destruct (pc_round ci iter T Adj (iter st Adj) cut [] c st) as [[[NonPC c1] st1]|e] eqn:E; cbn [bind] in H; [|discriminate].
    destruct (round_log _ _ _ _ _ _ _ _ _ _ E) as (n1 & Q1 & A1 & A2 & A3 & A4).
    assert (Hiter : forall X, In X (iter st Adj) <-> In X Adj) by (intros X; split; [apply Permutation_in, Permutation_sym, Hit|apply Permutation_in, Hit]).
    assert (HNi : NoDup (iter st Adj)) by (apply (Permutation_NoDup (Hit st Adj)); assumption).
    assert (Hno : forall X, In X NonPC <-> exists Z r, In (X, T, Z, r) n1 /\ bad r) by (intros X; rewrite A2; split; [intros [[]|Hx]; assumption|auto]).
    assert (Hdec : forall X, ~ In X NonPC -> forall Z r, In (X, T, Z, r) n1 -> r = Ok false).
    { intros X HX Z r Hin. destruct r as [[|]|e']; [|reflexivity|]; exfalso; apply HX, Hno; eexists _, _; (split; [exact Hin|discriminate]). }
    destruct (length (set_diff Adj NonPC) <=? S cut).
    - injection H as <- <- <-. exists n1. split; [assumption|]. split; [intros a b Z r Hin; destruct (A1 _ _ _ _ Hin) as (H1 & H2); split; [apply Hiter|]; assumption|].
      split; [apply diff_nodup; assumption|]. split.
      + intros X. rewrite diff_in. split.
        * intros (H1 & H2). split; [assumption|]. apply Hdec. assumption.
        * intros (H1 & H2). split; [assumption|]. rewrite Hno. intros (Z & r & Hin & Hb). apply Hb. eauto.
      + split; [intros Hc X HX; apply A3; [assumption|apply Hiter; assumption]|]. intros Hi X HX HnX. assert (HNX : In X NonPC).
        { destruct (in_dec Nat.eq_dec X NonPC) as [Hx|Hx]; [assumption|]. exfalso. apply HnX, diff_in. auto. }
        destruct (A4 HNi Hi X HNX) as [[]|G]. exact G.
    - destruct (IH _ _ _ _ _ _ _ (diff_nodup _ NonPC HNA) H) as (n2 & Q2 & B1 & B2 & B3 & B4 & B5). exists (n1 ++ n2). split; [rewrite Q2, Q1; symmetry; apply app_assoc|].
      split. { intros a b Z r Hin. apply in_app_or in Hin as [Hin|Hin]; [destruct (A1 _ _ _ _ Hin) as (H1 & H2); split; [apply Hiter|]; assumption|]. destruct (B1 _ _ _ _ Hin) as (H1 & H2). apply diff_in in H1 as (H1 & _). split; assumption. }
      split; [assumption|]. split.
      + intros X. rewrite B3, diff_in. split.
        * intros ((H1 & H2) & H3). split; [assumption|]. intros Z r Hin. apply in_app_or in Hin as [Hin|Hin]; [eapply Hdec; eassumption|eauto].
        * intros (H1 & H2). split; [split; [assumption|]|].
          -- rewrite Hno. intros (Z & r & Hin & Hb). apply Hb. apply (H2 Z r), in_or_app. left; assumption.
          -- intros Z r Hin. apply (H2 Z r), in_or_app. right; assumption.
      + split; [intros Hc X HX; destruct (A3 Hc X) as (Z & r & Hin); [apply Hiter; assumption|exists Z, r; apply in_or_app; left; assumption]|].
        intros Hi X HX HnX. destruct (in_dec Nat.eq_dec X NonPC) as [HNX|HNX].
        * destruct (A4 HNi) with (X := X) as [[]|(l1 & Z & l2 & -> & G)]; [intros a b Z r Hin; apply (Hi a b Z r), in_or_app; left; assumption|assumption|].
          exists l1, Z, (l2 ++ n2). split; [rewrite <- app_assoc; reflexivity|]. intros b Z' r Hin. apply in_app_or in Hin as [Hin|Hin]; [eapply G; eassumption|].
          destruct (B1 _ _ _ _ Hin) as (H1 & _). apply diff_in in H1 as (_ & H1). contradiction.
        * destruct B5 with (X := X) as (l1 & Z & l2 & -> & G); [intros a b Z r Hin; apply (Hi a b Z r), in_or_app; right; assumption|apply diff_in; auto|assumption|].
          exists (n1 ++ l1), Z, l2. split; [rewrite <- app_assoc; reflexivity|assumption].
  Qed.

  Lemma symmetry_log T U fuel : NoDup U -> forall Xs PC sp c st PC' sp' c' st', NoDup Xs -> ~ In T Xs -> In T U ->
    symmetry_loop ci iter fuel T U Xs PC sp c st = Ok (PC', sp', c', st') ->
    exists new, L st' = L st ++ new /\ (forall a b Z r, In (a, b, Z, r) new -> In b Xs /\ In a U) /\
      (forall X, In X PC' <-> In X PC \/ In X Xs /\ forall Z r, In (T, X, Z, r) new -> r = Ok false) /\
      (forall X, In X Xs -> exists Z r, In (T, X, Z, r) new) /\
      ((forall a b Z r, In (a, b, Z, r) new -> r <> Err InsufficientSamples) -> forall X, In X Xs -> ~ In X PC' ->
         exists l1 Z l2, new = l1 ++ (T, X, Z, Ok true) :: l2 /\ forall Z r, ~ In (T, X, Z, r) l2).
  Proof.
    intros HU. induction Xs as [|X Xs IH]; intros PC sp c st PC' sp' c' st' HN HT HTU H.
    { cbn [symmetry_loop] in H. injection H as <- <- <- <-. exists []. split; [symmetry; apply app_nil_r|]. split; [intros a b Z r []|]. split; [intros X; split; [auto|intros [H|([] & _)]; assumption]|]. split; [intros X []|]. intros _ X []. }
    inversion HN as [|? ? HX HN']; subst. assert (HTX : T <> X) by (intros ->; apply HT; left; reflexivity). assert (HT' : ~ In T Xs) by (intros Hx; apply HT; right; assumption).
    cbn [symmetry_loop] in H. unfold recognize_pc in H.
    destruct (recognize_loop ci iter fuel X (set_remove1 U X) 0 c st) as [[[PC_X c1] st1]|e] eqn:E; cbn [bind] in H; [|discriminate].
    destruct (recognize_log _ _ _ _ _ _ _ _ _ (remove1_nodup U X HU) E) as (n1 & Q1 & A1 & A2 & A3 & A4 & A5). specialize (A4 eq_refl).
    assert (HTA : In T (set_remove1 U X)) by (apply remove1_in; auto).
    assert (Hmem : (mem T PC_X = true <-> forall Z r, In (T, X, Z, r) n1 -> r = Ok false)).
    { rewrite mem_In, A3. split; [intros (_ & G); assumption|auto]. }
    set (PC1 := if mem T PC_X then set_add X PC else PC) in *.
    assert (H' : exists sp1, symmetry_loop ci iter fuel T U Xs PC1 sp1 c1 st1 = Ok (PC', sp', c', st')) by (unfold PC1; destruct (mem T PC_X); eauto).
    clear H. destruct H' as (sp1 & H). destruct (IH _ _ _ _ _ _ _ _ HN' HT' HTU H) as (n2 & Q2 & B1 & B2 & B3 & B4).
    exists (n1 ++ n2). split; [rewrite Q2, Q1; symmetry; apply app_assoc|]. split.
    { intros a b Z r Hin. apply in_app_or in Hin as [Hin|Hin].
      - destruct (A1 _ _ _ _ Hin) as (H1 & ->). apply remove1_in in H1 as (H1 & _). split; [left; reflexivity|assumption].
      - destruct (B1 _ _ _ _ Hin) as (H1 & H2). split; [right; assumption|assumption]. }
    assert (N1 : forall Y Z r, In (T, Y, Z, r) n1 -> Y = X) by (intros Y Z r Hin; apply (A1 _ _ _ _ Hin)).
    assert (N2 : forall Z r, ~ In (T, X, Z, r) n2) by (intros Z r Hin; apply HX, (B1 _ _ _ _ Hin)).
    assert (P1 : forall Y, In Y PC1 <-> In Y PC \/ Y = X /\ mem T PC_X = true).
    { intros Y. unfold PC1. destruct (mem T PC_X); rewrite ?add_in; intuition discriminate. }
    split.
    { intros Y. rewrite B2, P1, Hmem. split.
      - intros [[Hy|(-> & Hy)]|(Hy1 & Hy2)]; [auto| |].
        + right. split; [left; reflexivity|]. intros Z r Hin. apply in_app_or in Hin as [Hin|Hin]; [eauto|exfalso; eapply N2; eassumption].
        + right. split; [right; assumption|]. intros Z r Hin. apply in_app_or in Hin as [Hin|Hin]; [|eauto]. exfalso. apply N1 in Hin. subst. contradiction.
      - intros [Hy|([<- |Hy1] & Hy2)]; [auto| |].
        + left. right. split; [reflexivity|]. intros Z r Hin. apply (Hy2 Z r), in_or_app. left; assumption.
        + right. split; [assumption|]. intros Z r Hin. apply (Hy2 Z r), in_or_app. right; assumption. }
    split. { intros Y [<- |Hy]; [destruct (A4 T HTA) as (Z & r & Hin)|destruct (B3 Y Hy) as (Z & r & Hin)]; exists Z, r; apply in_or_app; auto. }
    intros Hi Y HY HnY.
    assert (Hi1 : forall a b Z r, In (a, b, Z, r) n1 -> r <> Err InsufficientSamples) by (intros a b Z r Hin; apply (Hi a b Z r), in_or_app; left; assumption).
    assert (Hi2 : forall a b Z r, In (a, b, Z, r) n2 -> r <> Err InsufficientSamples) by (intros a b Z r Hin; apply (Hi a b Z r), in_or_app; right; assumption).
    destruct HY as [<- |HY].
    - destruct (A5 Hi1 T HTA) as (l1 & Z & l2 & -> & G).
      { intros HTP. apply HnY. rewrite B2, P1. left; right. split; [reflexivity|]. apply mem_In. assumption. }
      exists l1, Z, (l2 ++ n2). split; [rewrite <- app_assoc; reflexivity|]. intros Z' r Hin. apply in_app_or in Hin as [Hin|Hin]; [eapply G|eapply N2]; eassumption.
    - destruct (B4 Hi2 Y HY HnY) as (l1 & Z & l2 & -> & G). exists (n1 ++ l1), Z, l2. split; [rewrite <- app_assoc; reflexivity|assumption].
  Qed.

  Lemma inner_log T X : forall Ys MB c st MB' st', spouse_inner ci T X Ys MB c st = Ok (MB', st') ->
    exists new, L st' = L st ++ new /\ (forall a b Z r, In (a, b, Z, r) new -> a = T /\ In b Ys /\ ~ In b MB) /\ incl MB MB' /\
      (forall Y, In Y MB' <-> In Y MB \/ exists Z, In (T, Y, Z, Ok false) new) /\
      (forall Y, In Y MB' -> ~ In Y MB -> exists l1 Z l2, new = l1 ++ (T, Y, Z, Ok false) :: l2 /\ forall a Z r, ~ In (a, Y, Z, r) l2).
  Proof.
    induction Ys as [|Y Ys IH]; intros MB c st MB' st' H; cbn [spouse_inner] in H.
    { injection H as <- <-. exists []. split; [symmetry; apply app_nil_r|]. split; [intros a b Z r []|]. split; [apply incl_refl|]. split; [intros Y; split; [auto|intros [H|(Z & [])]; assumption]|]. intros Y H1 H2. contradiction. }
    destruct (mem Y MB) eqn:EY.
    { destruct (IH _ _ _ _ _ H) as (new & Q & H1 & H2 & H3 & H4). exists new. split; [assumption|]. split; [|auto]. intros a b Z r Hin. destruct (H1 _ _ _ _ Hin) as (? & ? & ?). split; [assumption|]. split; [right|]; assumption. }
    apply mem_false in EY.
    destruct (sc_get [T; Y] c) as [sep|e]; cbn [bind] in H; [|discriminate]. destruct (rec_eq st T Y (set_union1 sep X)) as (r & st1 & E1 & Q0). rewrite E1 in H.
    assert (Hskip : forall r, r <> Ok false -> L st1 = L st ++ [(T, Y, set_union1 sep X, r)] -> spouse_inner ci T X Ys MB c st1 = Ok (MB', st') ->
      exists new, L st' = L st ++ new /\ (forall a b Z r, In (a, b, Z, r) new -> a = T /\ In b (Y :: Ys) /\ ~ In b MB) /\ incl MB MB' /\
      (forall Y, In Y MB' <-> In Y MB \/ exists Z, In (T, Y, Z, Ok false) new) /\
      (forall Y, In Y MB' -> ~ In Y MB -> exists l1 Z l2, new = l1 ++ (T, Y, Z, Ok false) :: l2 /\ forall a Z r, ~ In (a, Y, Z, r) l2)).
    { clear H. intros r' Hr Q1 H. destruct (IH _ _ _ _ _ H) as (new & Q & H1 & H2 & H3 & H4). exists ((T, Y, set_union1 sep X, r') :: new). split; [rewrite Q, Q1, <- app_assoc; reflexivity|].
      split. { intros a b Z r0 [Hin|Hin]; [injection Hin as <- <- <- <-; split; [reflexivity|split; [left; reflexivity|assumption]]|]. destruct (H1 _ _ _ _ Hin) as (? & ? & ?). split; [assumption|]. split; [right|]; assumption. }
      split; [assumption|]. split.
      - intros W. rewrite H3. split; (intros [Hw|(Z & Hw)]; [left; assumption|right; exists Z]); [right; assumption|]. destruct Hw as [Hw|Hw]; [congruence|assumption].
      - intros W Hw Hn. destruct (H4 W Hw Hn) as (l1 & Z & l2 & -> & G). eexists (_ :: l1), Z, l2. split; [reflexivity|assumption]. }
    destruct r as [[|]|e].
    - apply (Hskip (Ok true)); [discriminate|apply Q0, normal_true|assumption].
    - clear Hskip. destruct (IH _ _ _ _ _ H) as (new & Q & H1 & H2 & H3 & H4). exists ((T, Y, set_union1 sep X, Ok false) :: new). split; [rewrite Q, (Q0 normal_false), <- app_assoc; reflexivity|].
      assert (HnY : forall a Z r, ~ In (a, Y, Z, r) new) by (intros a Z r Hin; destruct (H1 _ _ _ _ Hin) as (_ & _ & G); apply G, add_in; auto).
      split. { intros a b Z r [Hin|Hin]; [injection Hin as <- <- <- <-; split; [reflexivity|split; [left; reflexivity|assumption]]|]. destruct (H1 _ _ _ _ Hin) as (G1 & G2 & G3). split; [assumption|]. split; [right; assumption|]. intros Hb. apply G3, add_in. auto. }
      split; [intros W Hw; apply H2, add_in; auto|]. split.
      + intros W. rewrite H3, add_in. split.
        * intros [[-> |Hw]|(Z & Hw)]; [right; eexists; left; reflexivity|auto|right; exists Z; right; assumption].
        * intros [Hw|(Z & [Hw|Hw])]; [auto|injection Hw as <- _; auto|right; eauto].
      + intros W Hw Hn. destruct (Nat.eq_dec W Y) as [-> |Hne]; [exists [], (set_union1 sep X), new; split; [reflexivity|assumption]|].
        destruct (H4 W Hw) as (l1 & Z & l2 & -> & G); [rewrite add_in; intros [?|?]; contradiction|]. eexists (_ :: l1), Z, l2. split; [reflexivity|assumption].
    - destruct e; try discriminate. apply (Hskip (Err InsufficientSamples)); [discriminate|apply Q0, normal_ins|assumption].
  Qed.

  Lemma spouse_log T : forall Xs MB sp c st MB' st', spouse_loop ci iter T Xs MB sp c st = Ok (MB', st') ->
    exists new, L st' = L st ++ new /\ (forall a b Z r, In (a, b, Z, r) new -> a = T /\ ~ In b MB) /\ incl MB MB' /\
      (forall Y, In Y MB' <-> In Y MB \/ exists Z, In (T, Y, Z, Ok false) new) /\
      (forall Y, In Y MB' -> ~ In Y MB -> exists l1 Z l2, new = l1 ++ (T, Y, Z, Ok false) :: l2 /\ forall a Z r, ~ In (a, Y, Z, r) l2).
  Proof.
    induction Xs as [|X Xs IH]; intros MB sp c st MB' st' H; cbn [spouse_loop] in H.
    { injection H as <- <-. exists []. split; [symmetry; apply app_nil_r|]. split; [intros a b Z r []|]. split; [apply incl_refl|]. split; [intros Y; split; [auto|intros [H|(Z & [])]; assumption]|]. intros Y H1 H2. contradiction. }
    destruct (sc_get [T; X] sp) as [Ys|e]; cbn [bind] in H; [|discriminate].
    destruct (spouse_inner ci T X (iter st Ys) MB c st) as [[MB1 st1]|e] eqn:E; cbn [bind] in H; [|discriminate].
    destruct (inner_log _ _ _ _ _ _ _ _ E) as (n1 & Q1 & A1 & A2 & A3 & A4). destruct (IH _ _ _ _ _ _ H) as (n2 & Q2 & B1 & B2 & B3 & B4).
    exists (n1 ++ n2). split; [rewrite Q2, Q1; symmetry; apply app_assoc|]. split.
    { intros a b Z r Hin. apply in_app_or in Hin as [Hin|Hin]; [destruct (A1 _ _ _ _ Hin) as (? & ? & ?); auto|]. destruct (B1 _ _ _ _ Hin) as (? & G). split; [assumption|]. intros Hb. apply G, A2. assumption. }
    split; [intros W Hw; apply B2, A2; assumption|]. split.
    - intros W. rewrite B3, A3. split.
      + intros [[Hw|(Z & Hw)]|(Z & Hw)]; [auto|right; exists Z; apply in_or_app; auto|right; exists Z; apply in_or_app; auto].
      + intros [Hw|(Z & Hw)]; [auto|]. apply in_app_or in Hw as [Hw|Hw]; [left; right; eauto|right; eauto].
    - intros W Hw Hn. destruct (in_dec Nat.eq_dec W MB1) as [Hw1|Hw1].
      + destruct (A4 W Hw1 Hn) as (l1 & Z & l2 & -> & G). exists l1, Z, (l2 ++ n2). split; [rewrite <- app_assoc; reflexivity|]. intros a Z' r Hin. apply in_app_or in Hin as [Hin|Hin]; [eapply G; eassumption|].
        destruct (B1 _ _ _ _ Hin) as (_ & G'). contradiction.
      + destruct (B4 W Hw Hw1) as (l1 & Z & l2 & -> & G). exists (n1 ++ l1), Z, l2. split; [rewrite <- app_assoc; reflexivity|assumption].
  Qed.

  Lemma ipcmb_pc_log U T st MB st' fuel (log := L st') : L st = [] -> NoDup U -> In T U -> ipcmb_discover_mb ci iter true U T st fuel = Ok (MB, st') ->
    forall x, In x MB <-> In x U /\ x <> T /\ (exists e, In e log /\ about x T e) /\ forall e, In e log -> about x T e -> says e = Ok false.
  Proof.
    intros Q0 HU HTU H x. unfold ipcmb_discover_mb, ipcmb, recognize_pc in H.
    destruct (recognize_loop ci iter fuel T (set_remove1 U T) 0 [] st) as [[[C c1] st1]|e] eqn:E1; cbn [bind] in H; [|discriminate].
    destruct (recognize_log _ _ _ _ _ _ _ _ _ (remove1_nodup U T HU) E1) as (n1 & Q1 & A1 & A2 & A3 & A4 & A5). rewrite Q0 in Q1. cbn [app] in Q1.
    destruct (symmetry_loop ci iter fuel T U (iter st1 C) [] [] c1 st1) as [[[[PC sp] c2] st2]|e] eqn:E2; cbn [bind] in H; [|discriminate].
    assert (HCi : forall X, In X (iter st1 C) <-> In X C) by (intros X; split; [apply Permutation_in, Permutation_sym, Hit|apply Permutation_in, Hit]).
    assert (HCT : ~ In T C) by (rewrite A3, remove1_in; tauto).
    destruct (symmetry_log T U fuel HU _ _ _ _ _ _ _ _ _ (Permutation_NoDup (Hit _ C) A2) ltac:(rewrite HCi; assumption) HTU E2) as (n2 & Q2 & B1 & B2 & B3 & _).
    injection H as <- <-. unfold log. rewrite Q2, Q1. rewrite sort_in, B2, HCi. split.
    - intros [[]|(H1 & H2)]. apply A3 in H1 as (H1 & H3). apply remove1_in in H1 as (H1 & H4). split; [assumption|]. split; [assumption|]. split.
      + destruct (A4 eq_refl x) as (Z & r & Hin); [apply remove1_in; auto|]. exists (x, T, Z, r). split; [apply in_or_app; left; assumption|left; auto].
      + intros [[[a b] Z] r] Hin Ha. cbn [says snd]. apply in_app_or in Hin as [Hin|Hin].
        * destruct (A1 _ _ _ _ Hin) as (G1 & ->). destruct Ha as [(-> & _)|(-> & <-)]; [eauto|congruence].
        * destruct (B1 _ _ _ _ Hin) as (G1 & G2). apply HCi in G1. destruct Ha as [(-> & ->)|(-> & ->)]; [contradiction|eauto].
    - intros (H1 & H2 & _ & H3). right. split.
      + apply A3. split; [apply remove1_in; auto|]. intros Z r Hin. apply (H3 (x, T, Z, r)); [apply in_or_app; left; assumption|left; auto].
      + intros Z r Hin. apply (H3 (T, x, Z, r)); [apply in_or_app; right; assumption|right; auto].
  Qed.

  Lemma split_last l1 l2 a b Z r x y (e := (a, b, Z, r)) : about x y e -> (forall e', In e' l2 -> ~ about x y e') -> last_answer (l1 ++ e :: l2) x y r.
  Proof. intros H1 H2. exists l1, e, l2. auto. Qed.

  Lemma ipcmb_full_log U T st MB st' fuel (log := L st') : L st = [] -> NoDup U -> In T U -> ipcmb_discover_mb ci iter false U T st fuel = Ok (MB, st') ->
    (forall x, In x MB -> last_answer log x T (Ok false)) /\
    ((forall e, In e log -> says e <> Err InsufficientSamples) -> forall x, In x U -> x <> T -> last_answer log x T (Ok false) -> In x MB) /\
    (forall x, In x U -> x <> T -> exists e, In e log /\ about x T e).
  Proof.
    intros Q0 HU HTU H. unfold ipcmb_discover_mb, ipcmb, recognize_pc in H.
    destruct (recognize_loop ci iter fuel T (set_remove1 U T) 0 [] st) as [[[C c1] st1]|e] eqn:E1; cbn [bind] in H; [|discriminate].
    destruct (recognize_log _ _ _ _ _ _ _ _ _ (remove1_nodup U T HU) E1) as (n1 & Q1 & A1 & A2 & A3 & A4 & A5). rewrite Q0 in Q1. cbn [app] in Q1.
    destruct (symmetry_loop ci iter fuel T U (iter st1 C) [] [] c1 st1) as [[[[PC sp] c2] st2]|e] eqn:E2; cbn [bind] in H; [|discriminate].
    assert (HCi : forall X, In X (iter st1 C) <-> In X C) by (intros X; split; [apply Permutation_in, Permutation_sym, Hit|apply Permutation_in, Hit]).
    assert (HCT : ~ In T C) by (rewrite A3, remove1_in; tauto).
    destruct (symmetry_log T U fuel HU _ _ _ _ _ _ _ _ _ (Permutation_NoDup (Hit _ C) A2) ltac:(rewrite HCi; assumption) HTU E2) as (n2 & Q2 & B1 & B2 & B3 & B4).
    destruct (spouse_loop ci iter T (iter st2 PC) PC sp c2 st2) as [[M st3]|e] eqn:E3; cbn [bind] in H; [|discriminate].
    destruct (spouse_log _ _ _ _ _ _ _ _ E3) as (n3 & Q3 & D1 & D2 & D3 & D4). injection H as <- <-. unfold log. rewrite Q3, Q2, Q1.
    assert (HPC : forall x, In x PC -> In x U /\ x <> T /\ (forall e, In e (n1 ++ n2) -> about x T e -> says e = Ok false) /\ exists e, In e (n1 ++ n2) /\ about x T e).
    { intros x Hx. apply B2 in Hx as [[]|(H1 & H2)]. apply HCi in H1. pose proof H1 as H1'. apply A3 in H1 as (H1 & H3). apply remove1_in in H1 as (H1 & H4). split; [assumption|]. split; [assumption|]. split.
      + intros [[[a b] Z] r] Hin Ha. cbn [says snd]. apply in_app_or in Hin as [Hin|Hin].
        * destruct (A1 _ _ _ _ Hin) as (G1 & ->). destruct Ha as [(-> & _)|(-> & <-)]; [eauto|congruence].
        * destruct (B1 _ _ _ _ Hin) as (G1 & G2). apply HCi in G1. destruct Ha as [(-> & ->)|(-> & ->)]; [contradiction|eauto].
      + destruct (A4 eq_refl x) as (Z & r & Hin); [apply remove1_in; auto|]. exists (x, T, Z, r). split; [apply in_or_app; left; assumption|left; auto]. }
    split; [|split].
    - intros x Hx. apply (proj1 (sort_in _ _)) in Hx. destruct (in_dec Nat.eq_dec x PC) as [Hp|Hp].
      + destruct (HPC x Hp) as (H1 & H2 & H3 & H4). apply last_app_left.
        * apply last_all; assumption.
        * intros [[[a b] Z] r] Hin Ha. destruct (D1 _ _ _ _ Hin) as (-> & G). destruct Ha as [(-> & ->)|(_ & ->)]; [congruence|contradiction].
      + destruct (D4 x Hx Hp) as (l1 & Z & l2 & -> & G). apply last_app_right, split_last; [right; auto|]. intros [[[a b] Z'] r] Hin Ha.
        assert (Hina : In (a, b, Z', r) (l1 ++ (T, x, Z, Ok false) :: l2)) by (apply in_or_app; right; right; assumption).
        destruct (D1 _ _ _ _ Hina) as (-> & G'). destruct Ha as [(-> & ->)|(_ & ->)]; [|eapply G; eassumption].
        eapply (G x Z' r). exact Hin.
    - intros Hi x HxU HxT Hl. apply (proj2 (sort_in _ _)). destruct (in_dec Nat.eq_dec x M) as [Hm|Hm]; [assumption|exfalso].
      assert (N3 : forall e, In e n3 -> about x T e -> exists Z r, e = (T, x, Z, r) /\ bad r).
      { intros [[[a b] Z] r] Hin Ha. destruct (D1 _ _ _ _ Hin) as (-> & G). destruct Ha as [(-> & ->)|(_ & ->)]; [congruence|]. exists Z, r. split; [reflexivity|]. intros ->. apply Hm, D3. right; eauto. }
      assert (HxC : In x (set_remove1 U T)) by (apply remove1_in; auto).
      assert (HnP : ~ In x PC) by (intros Hp; apply Hm, D2; assumption).
      assert (L12 : last_answer (n1 ++ n2) x T (Ok true)).
      { destruct (in_dec Nat.eq_dec x C) as [Hc|Hc].
        - apply last_app_right. destruct (B4 ltac:(intros a b Z r Hin; apply (Hi (a, b, Z, r)), in_or_app; left; apply in_or_app; right; assumption) x ltac:(apply HCi; assumption) HnP) as (l1 & Z & l2 & -> & G).
          apply split_last; [right; auto|]. intros [[[a b] Z'] r] Hin Ha. destruct Ha as [(-> & ->)|(-> & ->)]; [|eapply G; exact Hin].
          destruct (B1 x T Z' r) as (G' & _); [apply in_or_app; right; right; assumption|]. apply HCi in G'. contradiction.
        - apply last_app_left.
          + destruct (A5 ltac:(intros a b Z r Hin; apply (Hi (a, b, Z, r)), in_or_app; left; apply in_or_app; left; assumption) x HxC Hc) as (l1 & Z & l2 & -> & G).
            apply split_last; [left; auto|]. intros [[[a b] Z'] r] Hin Ha. destruct Ha as [(-> & ->)|(-> & ->)]; [eapply G; exact Hin|].
            destruct (A1 T x Z' r) as (_ & G'); [apply in_or_app; right; right; assumption|congruence].
          + intros [[[a b] Z'] r] Hin Ha. destruct (B1 _ _ _ _ Hin) as (G' & _). apply HCi in G'. destruct Ha as [(-> & ->)|(-> & ->)]; contradiction. }
      assert (D : (forall e, In e n3 -> ~ about x T e) \/ exists r, last_answer n3 x T r /\ bad r).
      { clear -N3. induction n3 as [|e n3 IH]; [left; intros e []|]. destruct IH as [IH|(r & IH & Hb)]; [intros e' He'; apply N3; right; assumption| |].
        - destruct e as [[[a b] Z] r]. destruct (Nat.eq_dec a T) as [Ea|Ea]; [destruct (Nat.eq_dec b x) as [Eb|Eb]|].
          + right. exists r. destruct (N3 (a, b, Z, r) (or_introl eq_refl)) as (Z' & r' & Ee & Hb); [right; auto|]. injection Ee as -> -> -> ->. split; [|assumption]. apply (split_last []); [right; auto|assumption].
          + left. intros e [<- |He]; [|auto]. intros Ha. destruct (N3 (a, b, Z, r) (or_introl eq_refl) Ha) as (Z' & r' & Ee & _). injection Ee as -> -> -> ->. congruence.
          + left. intros e [<- |He]; [|auto]. intros Ha. destruct (N3 (a, b, Z, r) (or_introl eq_refl) Ha) as (Z' & r' & Ee & _). injection Ee as -> -> -> ->. congruence.
        - right. exists r. split; [apply (last_app_right [e]); assumption|assumption]. }
      destruct D as [D|(r & D & Hb)].
      + pose proof (last_unique _ _ _ _ _ Hl (last_app_left _ _ _ _ _ L12 D)). discriminate.
      + pose proof (last_unique _ _ _ _ _ Hl (last_app_right _ _ _ _ _ D)). congruence.
    - intros x Hx Hne. destruct (A4 eq_refl x) as (Z & r & Hin); [apply remove1_in; auto|]. exists (x, T, Z, r). split; [do 2 (apply in_or_app; left); assumption|left; auto].
  Qed.
End Log.
