(** What IAMB returns, read off the answers of the CI test. *)
From Verif Require Import Base MB_Model MB_Spec MB_Cache_Proofs MB_Log_Spec MB_Log_Proofs.

Section Log.
  Context {St Score : Type}.
  Variable ci : St -> nat -> nat -> list nat -> res bool * St.
  Variable L : St -> list answered.
  Hypothesis HL : keeps_log ci L.
  Variable iter : St -> list nat -> list nat.
  Hypothesis Hit : iterates iter.
  Variable gt : Score -> Score -> bool.
  Variable heur : St -> nat -> nat -> list nat -> res Score * St.
  Hypothesis HH : forall st x y Z s st', heur st x y Z = (Ok s, st') -> L st' = L st.

  Lemma argmax_log T CMB : forall xs best score st b st', argmax gt heur T CMB best score xs st = Ok (b, st') -> L st' = L st /\ (b = best \/ In b xs).
  Proof.
    induction xs as [|x xs IH]; intros best score st b st' H; cbn [argmax] in H; [injection H as <- <-; auto|].
    destruct (heur st T x CMB) as [[s|e] st1] eqn:E; [|discriminate]. pose proof (HH _ _ _ _ _ _ E) as Q. destruct (gt s score); destruct (IH _ _ _ _ _ H) as (Q1 & [-> |Hb]); (split; [congruence|]); auto; right; [left|right|right]; auto.
  Qed.
  Lemma highest_log T cands CMB st b st' : highest_correlated_candidate iter gt heur T cands CMB st = Ok (b, st') -> L st' = L st /\ In b cands.
  Proof.
    unfold highest_correlated_candidate. destruct (iter st cands) as [|x xs] eqn:E; [discriminate|]. intros H. destruct (heur st T x CMB) as [[s|e] st1] eqn:E1; [|discriminate]. pose proof (HH _ _ _ _ _ _ E1) as Q.
    destruct (argmax_log _ _ _ _ _ _ _ _ H) as (Q1 & Hb). split; [congruence|]. apply (Permutation_in b (Permutation_sym (Hit st cands))). rewrite E. destruct Hb as [-> |Hb]; [left; reflexivity|right; assumption].
  Qed.

  Lemma grow_log T : forall fuel cands CMB st CMB' st', NoDup CMB -> (forall x, In x cands -> ~ In x CMB) -> grow ci iter gt heur fuel T cands CMB st = Ok (CMB', st') ->
    exists new, L st' = L st ++ new /\ (forall a b Z r, In (a, b, Z, r) new -> a = T /\ In b cands) /\ NoDup CMB' /\
      (forall x, In x CMB' <-> In x CMB \/ exists Z, In (T, x, Z, Ok false) new) /\
      (forall x Z, In (T, x, Z, Ok false) new -> forall a Z' r, In (a, x, Z', r) new -> r = Ok false).
  Proof.
    induction fuel as [|fuel IH]; intros cands CMB st CMB' st' HN Hd H; [discriminate|]. cbn [grow] in H.
    destruct cands as [|x0 cands0] eqn:Ec; [injection H as <- <-; exists []; split; [symmetry; apply app_nil_r|]; split; [intros a b Z r []|]; split; [assumption|]; split; [intros x; split; [auto|intros [Hx|(Z & [])]; assumption]|intros x Z []]|].
    rewrite <- Ec in *. clear Ec. destruct (highest_correlated_candidate iter gt heur T cands CMB st) as [[b st1]|e] eqn:E1; cbn [bind] in H; [|discriminate].
    destruct (highest_log _ _ _ _ _ _ E1) as (Qh & Hb). destruct (rec_eq ci L HL st1 T b CMB) as (r & st2 & E2 & Q0). rewrite E2 in H. rewrite Qh in Q0.
    assert (Hd' : forall x, In x (set_remove1 cands b) -> ~ In x CMB) by (intros x Hx; apply remove1_in in Hx as (Hx & _); auto).
    destruct r as [[|]|e].
    - injection H as <- <-. exists [(T, b, CMB, Ok true)]. split; [apply Q0, normal_true|]. split; [intros a c Z r [Hin|[]]; injection Hin as <- <- <- <-; auto|]. split; [assumption|]. split.
      + intros x. split; [auto|]. intros [Hx|(Z & [Hin|[]])]; [assumption|discriminate].
      + intros x Z [Hin|[]]. discriminate.
    - assert (Hd2 : forall x, In x (set_remove1 cands b) -> ~ In x (set_add b CMB)).
      { intros x Hx. rewrite add_in. apply remove1_in in Hx as (Hx & Hne). intros [Hx'|Hx']; [contradiction|]. exact (Hd x Hx Hx'). }
      destruct (IH _ _ _ _ _ (add_nodup b CMB HN) Hd2 H) as (new & Q & H1 & H2 & H3 & H4).
      exists ((T, b, CMB, Ok false) :: new). split; [rewrite Q, (Q0 normal_false), <- app_assoc; reflexivity|].
      assert (Hnb : forall a Z r, ~ In (a, b, Z, r) new) by (intros a Z r Hin; destruct (H1 _ _ _ _ Hin) as (_ & G); apply remove1_in in G; tauto).
      split; [intros a c Z r [Hin|Hin]; [injection Hin as <- <- <- <-; auto|]; destruct (H1 _ _ _ _ Hin) as (? & G); apply remove1_in in G; tauto|]. split; [assumption|]. split.
      + intros x. rewrite H3, add_in. split.
        * intros [[-> |Hx]|(Z & Hx)]; [right; exists CMB; left; reflexivity|auto|right; exists Z; right; assumption].
        * intros [Hx|(Z & [Hx|Hx])]; [auto|injection Hx as <- _; auto|right; eauto].
      + intros x Z Hin a Z' r Hin'. destruct (Nat.eq_dec x b) as [-> |Hne].
        * destruct Hin' as [Hin'|Hin']; [congruence|]. exfalso. eapply Hnb; eassumption.
        * destruct Hin as [Hin|Hin]; [congruence|]. destruct Hin' as [Hin'|Hin']; [congruence|]. eapply H4; eassumption.
    - destruct e; try discriminate. destruct (IH _ _ _ _ _ HN Hd' H) as (new & Q & H1 & H2 & H3 & H4). exists ((T, b, CMB, Err InsufficientSamples) :: new). split; [rewrite Q, (Q0 normal_ins), <- app_assoc; reflexivity|].
      assert (Hnb : forall a Z r, ~ In (a, b, Z, r) new) by (intros a Z r Hin; destruct (H1 _ _ _ _ Hin) as (_ & G); apply remove1_in in G; tauto).
      split; [intros a c Z r [Hin|Hin]; [injection Hin as <- <- <- <-; auto|]; destruct (H1 _ _ _ _ Hin) as (? & G); apply remove1_in in G; tauto|]. split; [assumption|]. split.
      + intros x. rewrite H3. split; (intros [Hx|(Z & Hx)]; [auto|right; exists Z]); [right; assumption|]. destruct Hx as [Hx|Hx]; [discriminate|assumption].
      + intros x Z Hin a Z' r Hin'. destruct Hin as [Hin|Hin]; [discriminate|]. destruct Hin' as [Hin'|Hin']; [|eapply H4; eassumption]. injection Hin' as <- <- _ _. exfalso. eapply Hnb; eassumption.
  Qed.

  Lemma shrink_log T CMB : forall Xs fp st MB st', NoDup Xs -> (forall x, In x Xs -> ~ In x fp) -> shrink ci T CMB Xs fp st = Ok (MB, st') ->
    exists new, L st' = L st ++ new /\ (forall a b Z r, In (a, b, Z, r) new -> a = T /\ In b Xs) /\
      (forall x, In x MB <-> In x CMB /\ ~ In x fp /\ forall a Z r, In (a, x, Z, r) new -> r <> Ok true) /\
      (forall x, In x Xs -> exists Z r, In (T, x, Z, r) new) /\
      (forall x Z r, In (T, x, Z, r) new -> forall a Z' r', In (a, x, Z', r') new -> r' = r).
  Proof.
    induction Xs as [|X Xs IH]; intros fp st MB st' HN Hd H; cbn [shrink] in H.
    { injection H as <- <-. exists []. split; [symmetry; apply app_nil_r|]. split; [intros a b Z r []|]. split; [intros x; rewrite diff_in; split; [intros (? & ?); split; [assumption|split; [assumption|intros a Z r []]]|tauto]|]. split; [intros x []|intros x Z r []]. }
    inversion HN as [|? ? HX HN']; subst. destruct (rec_eq ci L HL st T X (set_remove1 (set_diff CMB fp) X)) as (r & st1 & E2 & Q0). rewrite E2 in H.
    assert (Hstep : forall fp1 r, (forall x, In x fp1 <-> In x fp \/ x = X /\ r = Ok true) -> (forall x, In x Xs -> ~ In x fp1) ->
       L st1 = L st ++ [(T, X, set_remove1 (set_diff CMB fp) X, r)] -> shrink ci T CMB Xs fp1 st1 = Ok (MB, st') ->
       exists new, L st' = L st ++ new /\ (forall a b Z r, In (a, b, Z, r) new -> a = T /\ In b (X :: Xs)) /\
      (forall x, In x MB <-> In x CMB /\ ~ In x fp /\ forall a Z r, In (a, x, Z, r) new -> r <> Ok true) /\
      (forall x, In x (X :: Xs) -> exists Z r, In (T, x, Z, r) new) /\
      (forall x Z r, In (T, x, Z, r) new -> forall a Z' r', In (a, x, Z', r') new -> r' = r)).
    { clear H E2 Q0 r. intros fp1 r Hf Hd1 Q0 H. destruct (IH _ _ _ _ HN' Hd1 H) as (new & Q & H1 & H2 & H3 & H4). eexists (_ :: new). split; [rewrite Q, Q0, <- app_assoc; reflexivity|].
      assert (HnX : forall a Z r, ~ In (a, X, Z, r) new) by (intros a Z r' Hin; apply HX, (H1 _ _ _ _ Hin)).
      split; [intros a b Z r' [Hin|Hin]; [injection Hin as <- <- <- <-; split; [|left]; reflexivity|]; destruct (H1 _ _ _ _ Hin); split; [|right]; assumption|]. split; [|split].
      - intros x. rewrite H2. split.
        + intros (G1 & G2 & G3). split; [assumption|]. split; [intros G; apply G2, Hf; auto|]. intros a Z r' [Hin|Hin]; [|eauto]. injection Hin as _ <- _ <-. intros ->. apply G2, Hf. auto.
        + intros (G1 & G2 & G3). split; [assumption|]. split; [rewrite Hf; intros [G|(-> & ->)]; [contradiction|]; eapply G3; [left; reflexivity|reflexivity]|]. intros a Z r' Hin. eapply G3. right; eassumption.
      - intros x [<- |Hx]; [eexists _, r; left; reflexivity|]. destruct (H3 x Hx) as (Z & r' & Hin). exists Z, r'. right; assumption.
      - intros x Z r1 Hin a Z' r2 Hin'. destruct Hin as [Hin|Hin], Hin' as [Hin'|Hin'].
        + congruence.
        + injection Hin as <- _ _. exfalso. eapply HnX; eassumption.
        + injection Hin' as _ <- _ _. exfalso. eapply HnX; eassumption.
        + eauto. }
    destruct r as [[|]|e].
    - eapply (Hstep (set_add X fp) (Ok true)); [| |apply Q0, normal_true|exact H].
      + intros x. rewrite add_in. intuition.
      + intros x Hx. rewrite add_in. intros [-> |Hx']; [contradiction|]. eapply Hd; [right|]; eassumption.
    - eapply (Hstep fp (Ok false)); [| |apply Q0, normal_false|exact H].
      + intros x. intuition discriminate.
      + intros x Hx. apply Hd. right; assumption.
    - destruct e; try discriminate. eapply (Hstep fp (Err InsufficientSamples)); [| |apply Q0, normal_ins|exact H].
      + intros x. intuition discriminate.
      + intros x Hx. apply Hd. right; assumption.
  Qed.

  (** found dependent, and never found independent after that *)
  Lemma iamb_log U T st MB st' fuel (log := L st') : L st = [] -> NoDup U -> iamb_discover_mb ci iter gt heur U T st fuel = Ok (MB, st') ->
    (forall x, In x MB <-> exists before Z after, log = before ++ (T, x, Z, Ok false) :: after /\ forall Z' , ~ In (T, x, Z', Ok true) after) /\
    (forall a b Z r, In (a, b, Z, r) log -> a = T /\ In b U /\ b <> T).
  Proof.
    intros Q0 HU H. unfold iamb_discover_mb in H.
    destruct (grow ci iter gt heur fuel T (set_remove1 U T) [] st) as [[CMB st1]|e] eqn:E1; cbn [bind] in H; [|discriminate].
    destruct (grow_log T _ _ _ _ _ _ (NoDup_nil _) ltac:(intros x _ []) E1) as (n1 & Q1 & A1 & A2 & A3 & A4). rewrite Q0 in Q1. cbn [app] in Q1.
    destruct (shrink ci T CMB (iter st1 CMB) [] st1) as [[M st2]|e] eqn:E2; cbn [bind] in H; [|discriminate]. injection H as <- <-.
    assert (HCi : forall X, In X (iter st1 CMB) <-> In X CMB) by (intros X; split; [apply Permutation_in, Permutation_sym, Hit|apply Permutation_in, Hit]).
    destruct (shrink_log T CMB _ _ _ _ _ (Permutation_NoDup (Hit _ CMB) A2) (fun (x : nat) _ (H : In x []) => H) E2) as (n2 & Q2 & B1 & B2 & B3 & B4).
    assert (A3' : forall x, In x CMB <-> exists Z, In (T, x, Z, Ok false) n1) by (intros x; rewrite A3; split; [intros [[]|G]; assumption|auto]).
    unfold log. rewrite Q2, Q1. split.
    - intros x. rewrite sort_in, B2. split.
      + intros (H1 & _ & H2). apply A3' in H1 as (Z & Hin). pose proof Hin as Hin'. apply in_split in Hin as (l1 & l2 & ->). exists l1, Z, (l2 ++ n2). split; [rewrite <- app_assoc; reflexivity|].
        intros Z' G. apply in_app_or in G as [G|G]; [|apply (H2 T Z' (Ok true) G); reflexivity]. assert (Ok true = Ok false); [|discriminate]. eapply (A4 x Z Hin' T Z'). apply in_or_app. right; right; assumption.
      + intros (l1 & Z & l2 & El & Hn).
        assert (Hin : In (T, x, Z, Ok false) (n1 ++ n2)) by (rewrite El; apply in_or_app; right; left; reflexivity).
        assert (HC : In x CMB). { apply in_app_or in Hin as [Hin|Hin]; [apply A3'; eauto|]. apply HCi, (B1 _ _ _ _ Hin). }
        split; [assumption|]. split; [intros []|]. intros a Z' r Hin' ->. destruct (B1 _ _ _ _ Hin') as (-> & _).
        apply in_app_or in Hin as [Hin|Hin]; [|pose proof (B4 _ _ _ Hin _ _ _ Hin'); discriminate].
        (* the independent answer is in n2, hence after every entry of n1; the split point is in n1 *)
        assert (G : forall (n1 n2 l1 l2 : list answered) e, n1 ++ n2 = l1 ++ e :: l2 -> (exists p, l1 = n1 ++ p) \/ exists q, l2 = q ++ n2).
        { clear. induction n1 as [|c n1 IH]; intros n2 l1 l2 e H; [left; exists l1; reflexivity|]. destruct l1 as [|d l1]; cbn [app] in H; injection H as <- H; [right; exists n1; auto|].
          destruct (IH _ _ _ _ H) as [(p & ->)|(q & ->)]; [left; exists p; reflexivity|right; exists q; reflexivity]. }
        destruct (G _ _ _ _ _ El) as [(p & ->)|(q & ->)].
        * rewrite <- app_assoc in El. apply app_inv_head in El. subst n2. assert (Hx : In (T, x, Z, Ok false) (p ++ (T, x, Z, Ok false) :: l2)) by (apply in_or_app; right; left; reflexivity). pose proof (B4 _ _ _ Hx _ _ _ Hin'). discriminate.
        * apply (Hn Z'), in_or_app. right; assumption.
    - intros a b Z r Hin. apply in_app_or in Hin as [Hin|Hin].
      + destruct (A1 _ _ _ _ Hin) as (-> & G). apply remove1_in in G. tauto.
      + destruct (B1 _ _ _ _ Hin) as (-> & G). apply HCi, A3' in G as (Z' & G). destruct (A1 _ _ _ _ G) as (_ & G'). apply remove1_in in G'. tauto.
  Qed.
End Log.
