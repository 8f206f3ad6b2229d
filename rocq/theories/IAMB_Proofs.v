(** Running IAMB against an arbitrary CI test and heuristic, and against perfect ones. *)
From Verif Require Import Base Graph_Spec Graph_Dsep_Proofs MB_Model MB_Spec MB_Cache_Proofs DAG_Sep_Proofs IPCMB_Exact_Proofs.

Section Run.
  Context {St Score : Type}.
  Variable ci : St -> nat -> nat -> list nat -> res bool * St.
  Variable iter : St -> list nat -> list nat.
  Variable gt : Score -> Score -> bool.
  Variable heur : St -> nat -> nat -> list nat -> res Score * St.
  Variable V : list nat.
  Variable Inv : St -> Prop.
  Variables PT PF : nat -> nat -> list nat -> Prop.
  Variable INS : Prop.
  (** HI: dependent-looking scores *)
  Variable SC : nat -> nat -> list nat -> Score -> Prop.
  Hypothesis Hiter : iterates iter.
  Hypothesis Hci : forall st x y Z, Inv st -> sensible_question V x y Z ->
    exists r st', ci st x y Z = (r, st') /\ Inv st' /\
      ((r = Ok true /\ PT x y Z) \/ (r = Ok false /\ PF x y Z) \/ (r = Err InsufficientSamples /\ INS)).
  Variable T : nat.
  Hypothesis Hh : forall st y Z, Inv st -> sensible_question V T y Z ->
    exists s st', heur st T y Z = (Ok s, st') /\ Inv st' /\ SC T y Z s.

  (** [P]: good candidates, scored above the others *)
  Lemma argmax_ok CMB (P : nat -> Prop) :
    (forall x y s t, SC T x CMB s -> SC T y CMB t -> P x -> ~ P y -> gt s t = true /\ gt t s = false) -> (forall x, P x \/ ~ P x) ->
    forall xs best score st, Inv st -> (forall x, In x xs -> sensible_question V T x CMB) -> SC T best CMB score ->
    exists b st', argmax gt heur T CMB best score xs st = Ok (b, st') /\ Inv st' /\ (b = best \/ In b xs) /\
      ((exists x, (x = best \/ In x xs) /\ P x) -> P b).
  Proof.
    intros HP Hd. induction xs as [|x xs IH]; intros best score st Hi Hx Hs.
    { exists best, st. simpl. split; [reflexivity|]. split; [assumption|]. split; [auto|]. intros (x & [->|[]] & H). assumption. }
    cbn [argmax]. destruct (Hh st x CMB Hi) as (s & st1 & E1 & Hi1 & Hs1); [apply Hx; left; reflexivity|]. rewrite E1.
    assert (Hx' : forall y, In y xs -> sensible_question V T y CMB) by (intros y Hy; apply Hx; right; assumption).
    destruct (gt s score) eqn:Eg.
    - destruct (IH x s st1 Hi1 Hx' Hs1) as (b & st' & E & Hi' & Hb & HPb). exists b, st'. split; [assumption|]. split; [assumption|].
      split; [destruct Hb as [->|Hb]; right; [left; reflexivity|right; assumption]|].
      intros (y & Hy & HPy). apply HPb. destruct Hy as [->|[->|Hy]]; [|exists y; auto|exists y; auto].
      destruct (Hd x) as [H|H]; [exists x; auto|]. destruct (HP best x score s Hs Hs1 HPy H). congruence.
    - destruct (IH best score st1 Hi1 Hx' Hs) as (b & st' & E & Hi' & Hb & HPb). exists b, st'. split; [assumption|]. split; [assumption|].
      split; [destruct Hb as [->|Hb]; [left; reflexivity|right; right; assumption]|].
      intros (y & Hy & HPy). apply HPb. destruct Hy as [->|[->|Hy]]; [exists best; auto| |exists y; auto].
      destruct (Hd best) as [H|H]; [exists best; auto|]. destruct (HP y best s score Hs1 Hs HPy H). congruence.
  Qed.

  Lemma highest_ok CMB cands st (P : nat -> Prop) :
    (forall x y s t, SC T x CMB s -> SC T y CMB t -> P x -> ~ P y -> gt s t = true /\ gt t s = false) -> (forall x, P x \/ ~ P x) ->
    cands <> [] -> Inv st -> (forall x, In x cands -> sensible_question V T x CMB) ->
    exists b st', highest_correlated_candidate iter gt heur T cands CMB st = Ok (b, st') /\ Inv st' /\ In b cands /\
      ((exists x, In x cands /\ P x) -> P b).
  Proof.
    intros HP Hd Hne Hi Hx. unfold highest_correlated_candidate. destruct (iter st cands) as [|x xs] eqn:Ei.
    { exfalso. apply Hne. pose proof (Hiter st cands) as Hp. rewrite Ei in Hp. apply Permutation_sym, Permutation_nil in Hp. assumption. }
    assert (Hin : forall y, In y (x :: xs) <-> In y cands) by (intros y; rewrite <- Ei; apply (iter_in iter Hiter)).
    destruct (Hh st x CMB Hi) as (s & st1 & E1 & Hi1 & Hs1); [apply Hx, Hin; left; reflexivity|]. rewrite E1.
    destruct (argmax_ok CMB P HP Hd xs x s st1 Hi1) as (b & st' & E & Hi' & Hb & HPb).
    { intros y Hy. apply Hx, Hin. right; assumption. } { assumption. }
    exists b, st'. split; [assumption|]. split; [assumption|]. split; [apply Hin; destruct Hb as [->|Hb]; simpl; auto|].
    intros (y & Hy & HPy). apply HPb. exists y. split; [|assumption]. apply Hin in Hy as [->|Hy]; auto.
  Qed.

  Definition shown x := exists Z, sensible_question V T x Z /\ PF T x Z.

  (** [worthy CMB x]: x deserves to be added to CMB *)
  Variable worthy : list nat -> nat -> Prop.
  Hypothesis HW1 : forall CMB x y s t, SC T x CMB s -> SC T y CMB t -> worthy CMB x -> ~ worthy CMB y -> gt s t = true /\ gt t s = false.
  Hypothesis HW2 : forall CMB x, worthy CMB x \/ ~ worthy CMB x.
  Hypothesis HW3 : forall CMB x, PT T x CMB -> ~ worthy CMB x.

  Lemma grow_ok : In T V ->
    forall fuel cands CMB st, Inv st -> NoDup cands -> NoDup CMB -> ~ In T cands -> ~ In T CMB -> incl cands V -> incl CMB V ->
    (forall x, In x cands -> ~ In x CMB) -> length cands < fuel ->
    exists CMB' st', (forall f, fuel <= f -> grow ci iter gt heur f T cands CMB st = Ok (CMB', st')) /\ Inv st' /\ NoDup CMB' /\
      incl CMB CMB' /\ (forall x, In x CMB' -> In x CMB \/ (In x cands /\ shown x)) /\
      (forall x, In x cands -> ~ In x CMB' -> INS \/ ~ worthy CMB' x).
  Proof.
    intros HTV. induction fuel as [|fuel IH]; intros cands CMB st Hi HN1 HN2 HT1 HT2 HV1 HV2 Hdis Hf; [lia|].
    destruct cands as [|x0 cands0] eqn:Ec.
    { exists CMB, st. split; [intros [|f] Hf'; [lia|reflexivity]|]. split; [assumption|]. split; [assumption|]. split; [apply incl_refl|].
      split; [auto|intros x []]. }
    rewrite <- Ec in *. assert (Hne : cands <> []) by (rewrite Ec; discriminate).
    assert (Hsq : forall x, In x cands -> sensible_question V T x CMB).
    { intros x Hx. split; [intros ->; contradiction|]. split; [assumption|]. split; [auto|]. split; [assumption|]. split; [assumption|].
      split; [apply HV1; assumption|assumption]. }
    destruct (highest_ok CMB cands st (worthy CMB) (HW1 CMB) (HW2 CMB) Hne Hi Hsq) as (b & st1 & E1 & Hi1 & Hb & HPb).
    destruct (Hci st1 T b CMB Hi1 (Hsq b Hb)) as (r & st2 & E2 & Hi2 & Hr).
    assert (Hstep : forall f, grow ci iter gt heur (S f) T cands CMB st =
      match r with
      | Ok false => grow ci iter gt heur f T (set_remove1 cands b) (set_add b CMB) st2
      | Ok true => Ok (CMB, st2)
      | Err InsufficientSamples => grow ci iter gt heur f T (set_remove1 cands b) CMB st2
      | Err e => Err e
      end).
    { intros f. rewrite Ec. cbn [grow]. rewrite <- Ec. rewrite E1. cbn [bind]. rewrite E2. destruct r as [[|]|e]; reflexivity. }
    assert (Hlen : length (set_remove1 cands b) < length cands).
    { apply (NoDup_incl_length (l := b :: set_remove1 cands b)).
      - constructor; [rewrite remove1_in; tauto|apply remove1_nodup; assumption].
      - intros y [<-|Hy]; [assumption|apply remove1_in in Hy; tauto]. }
    assert (HN1' : NoDup (set_remove1 cands b)) by (apply remove1_nodup; assumption).
    assert (HT1' : ~ In T (set_remove1 cands b)) by (rewrite remove1_in; tauto).
    assert (HV1' : incl (set_remove1 cands b) V) by (intros y Hy; apply HV1; apply remove1_in in Hy; tauto).
    destruct Hr as [(-> & HPT)|[(-> & HPF)|(-> & HINS)]].
    - exists CMB, st2. split; [intros [|f] Hf'; [lia|apply Hstep]|]. split; [assumption|]. split; [assumption|]. split; [apply incl_refl|].
      split; [auto|]. intros x Hx Hn. right. intros Hw. apply (HW3 CMB b HPT), HPb. eauto.
    - destruct (IH (set_remove1 cands b) (set_add b CMB) st2) as (CMB' & st' & E' & Hi' & HN' & HI' & HS' & HC'); try assumption.
      { apply add_nodup; assumption. } { rewrite add_in. intros [->|?]; contradiction. }
      { intros y Hy. apply add_in in Hy as [->|Hy]; auto. }
      { intros y Hy. apply remove1_in in Hy as (Hy & Hyb). rewrite add_in. intros [?|?]; [contradiction|]. eapply Hdis; eauto. } { lia. }
      exists CMB', st'. split; [intros [|f] Hf'; [lia|rewrite Hstep; apply E'; lia]|]. split; [assumption|]. split; [assumption|].
      split; [intros y Hy; apply HI', add_in; auto|]. split.
      + intros x Hx. destruct (HS' x Hx) as [H|(H1 & H2)]; [|apply remove1_in in H1; tauto].
        apply add_in in H as [->|H]; [|auto]. right. split; [assumption|]. exists CMB. auto.
      + intros x Hx Hn. apply HC'; [|assumption]. apply remove1_in. split; [assumption|]. intros ->. apply Hn, HI', add_in. auto.
    - destruct (IH (set_remove1 cands b) CMB st2) as (CMB' & st' & E' & Hi' & HN' & HI' & HS' & HC'); try assumption.
      { intros y Hy. apply remove1_in in Hy as (Hy & Hyb). auto. } { lia. }
      exists CMB', st'. split; [intros [|f] Hf'; [lia|rewrite Hstep; apply E'; lia]|]. split; [assumption|]. split; [assumption|].
      split; [assumption|]. split.
      + intros x Hx. destruct (HS' x Hx) as [H|(H1 & H2)]; [auto|]. apply remove1_in in H1. tauto.
      + intros x Hx Hn. auto.
  Qed.

  Lemma shrink_ok CMB : In T V -> NoDup CMB -> ~ In T CMB -> incl CMB V ->
    forall Xs fp st, Inv st -> incl Xs CMB -> (forall x, In x Xs -> ~ In x fp) -> NoDup Xs ->
    exists fp' st', shrink ci T CMB Xs fp st = Ok (set_diff CMB fp', st') /\ Inv st' /\ incl fp fp' /\
      (forall Q : nat -> Prop, (forall x, In x fp -> Q x) ->
         (forall fp1 x, (forall y, In y fp1 -> Q y) -> In x CMB -> PT T x (set_remove1 (set_diff CMB fp1) x) -> Q x) -> forall x, In x fp' -> Q x) /\
      (forall x, In x Xs -> ~ In x fp' -> INS \/ exists fp1, incl fp fp1 /\ incl fp1 fp' /\ PF T x (set_remove1 (set_diff CMB fp1) x)).
  Proof.
    intros HTV HN HT HV. induction Xs as [|X Xs IH]; intros fp st Hi HX Hdis HNX.
    { exists fp, st. simpl. split; [reflexivity|]. split; [assumption|]. split; [apply incl_refl|]. split; [auto|intros x []]. }
    inversion HNX as [|? ? HXn HNX']; subst.
    assert (HXC : In X CMB) by (apply HX; left; reflexivity).
    assert (Hsq : sensible_question V T X (set_remove1 (set_diff CMB fp) X)).
    { split; [intros ->; contradiction|]. split; [rewrite remove1_in, diff_in; tauto|]. split; [rewrite remove1_in; tauto|].
      split; [apply remove1_nodup, diff_nodup; assumption|]. split; [assumption|]. split; [apply HV; assumption|].
      intros y Hy. apply remove1_in in Hy as (Hy & _). apply diff_in in Hy as (Hy & _). auto. }
    cbn [shrink]. destruct (Hci st T X _ Hi Hsq) as (r & st1 & E1 & Hi1 & Hr). rewrite E1.
    assert (HX' : incl Xs CMB) by (intros y Hy; apply HX; right; assumption).
    assert (Hd' : forall x, In x Xs -> ~ In x fp) by (intros x Hx; apply Hdis; right; assumption).
    destruct Hr as [(-> & HP)|[(-> & HP)|(-> & HP)]].
    - destruct (IH (set_add X fp) st1 Hi1 HX') as (fp' & st' & E & Hi' & HI & HS & HC); [|assumption|].
      { intros x Hx. rewrite add_in. intros [->|Hf]; [contradiction|]. apply (Hd' x Hx Hf). }
      exists fp', st'. split; [assumption|]. split; [assumption|]. split; [intros y Hy; apply HI, add_in; auto|]. split.
      + intros Q HQ Hstep. apply HS; [|assumption]. intros x Hx. apply add_in in Hx as [->|Hx]; [|auto]. eapply Hstep; eauto.
      + intros x [<-|Hx] Hn; [exfalso; apply Hn, HI, add_in; auto|]. destruct (HC x Hx Hn) as [?|(fp1 & H2 & H3 & H4)]; [auto|]. right. exists fp1.
        split; [intros y Hy; apply H2, add_in; auto|auto].
    - destruct (IH fp st1 Hi1 HX' Hd' HNX') as (fp' & st' & E & Hi' & HI & HS & HC).
      exists fp', st'. split; [assumption|]. split; [assumption|]. split; [assumption|]. split.
      + assumption.
      + intros x [<-|Hx] Hn; [|auto]. right. exists fp. split; [apply incl_refl|]. split; assumption.
    - destruct (IH fp st1 Hi1 HX' Hd' HNX') as (fp' & st' & E & Hi' & HI & HS & HC).
      exists fp', st'. split; [assumption|]. split; [assumption|]. split; [assumption|]. split.
      + assumption.
      + intros x [<-|Hx] Hn; auto.
  Qed.

  Lemma iamb_ok U st : In T V -> incl U V -> NoDup U -> Inv st ->
    exists CMB fp st', (forall f, S (length U) <= f -> iamb_discover_mb ci iter gt heur U T st f = Ok (sort_nat (set_diff CMB fp), st')) /\
      Inv st' /\ NoDup CMB /\ incl CMB (set_remove1 U T) /\ (forall x, In x CMB -> shown x) /\
      (forall x, In x U -> x <> T -> ~ In x CMB -> INS \/ ~ worthy CMB x) /\
      (forall Q : nat -> Prop,
         (forall fp1 x, (forall y, In y fp1 -> Q y) -> In x CMB -> PT T x (set_remove1 (set_diff CMB fp1) x) -> Q x) -> forall x, In x fp -> Q x) /\
      (forall x, In x CMB -> ~ In x fp -> INS \/ exists fp1, incl fp1 fp /\ PF T x (set_remove1 (set_diff CMB fp1) x)).
  Proof.
    intros HTV HUV HNU Hi.
    assert (Hlen : length (set_remove1 U T) <= length U).
    { apply NoDup_incl_length; [apply remove1_nodup; assumption|]. intros x Hx. apply remove1_in in Hx; tauto. }
    destruct (grow_ok HTV (S (length U)) (set_remove1 U T) [] st Hi) as (CMB & st1 & E1 & Hi1 & HN & _ & HS & HC).
    { apply remove1_nodup; assumption. } { constructor. } { rewrite remove1_in; tauto. } { intros []. }
    { intros x Hx. apply remove1_in in Hx. apply HUV. tauto. } { intros x []. } { intros x _ []. } { lia. }
    assert (HI : incl CMB (set_remove1 U T)) by (intros x Hx; destruct (HS x Hx) as [[]|(H & _)]; assumption).
    destruct (shrink_ok CMB HTV HN) with (Xs := iter st1 CMB) (fp := @nil nat) (st := st1) as (fp & st2 & E2 & Hi2 & _ & HF & HK).
    { intros H. apply HI, remove1_in in H. tauto. } { intros x Hx. apply HI, remove1_in in Hx. apply HUV. tauto. } { assumption. }
    { intros x Hx. apply (iter_in iter Hiter) in Hx. assumption. } { intros x _ []. } { apply (Permutation_NoDup (Hiter st1 CMB)). assumption. }
    exists CMB, fp, st2. split.
    { intros f Hf. unfold iamb_discover_mb. rewrite E1 by lia. cbn [bind]. rewrite E2. reflexivity. }
    split; [assumption|]. split; [assumption|]. split; [assumption|]. split; [intros x Hx; destruct (HS x Hx) as [[]|(_ & H)]; assumption|].
    split; [intros x Hx Hn HnC; apply HC; [apply remove1_in; auto|assumption]|]. split.
    - intros Q HQ. apply HF; [intros x []|assumption].
    - intros x Hx Hn. destruct (HK x) as [?|(fp1 & _ & H)]; [apply (iter_in iter Hiter); assumption|assumption|auto|]. right. eauto.
  Qed.
End Run.

(** C30 *)
Lemma iamb_total {St Score} (ci : St -> nat -> nat -> list nat -> res bool * St) iter (gt : Score -> Score -> bool) heur V Inv U T st :
  answers_sensibly ci V Inv ->
  (forall st x y Z, Inv st -> sensible_question V x y Z -> exists s st', heur st x y Z = (Ok s, st') /\ Inv st') ->
  iterates iter -> NoDup U -> incl U V -> In T V -> Inv st ->
  exists MB st', (forall f, S (length U) <= f -> iamb_discover_mb ci iter gt heur U T st f = Ok (MB, st')) /\ Inv st' /\
    StronglySorted lt MB /\ (forall x, In x MB -> In x U /\ x <> T /\ exists s Z s', Inv s /\ sensible_question V T x Z /\ ci s T x Z = (Ok false, s')).
Proof.
  intros Hci Hh Hit HN HU HT Hi.
  destruct (iamb_ok ci iter gt heur V Inv (fun _ _ _ => True) (fun x y Z => exists s s', Inv s /\ ci s x y Z = (Ok false, s')) True (fun _ _ _ _ => True) Hit)
    with (T := T) (worthy := fun (_ : list nat) (_ : nat) => False) (U := U) (st := st)
    as (CMB & fp & st' & E & Hi' & HNC & HI & HS & _); try assumption.
  { intros s x y Z Hs Hq. destruct (Hci s x y Z Hs Hq) as (r & s' & E & HI & H). exists r, s'. split; [assumption|]. split; [assumption|].
    destruct H as [->|[->| ->]]; [auto|right; left; split; [reflexivity|eauto]|auto]. }
  { intros s y Z Hs Hq. destruct (Hh s T y Z Hs Hq) as (r & s' & E & HI). eauto. }
  { contradiction. } { auto. } { auto. }
  exists (sort_nat (set_diff CMB fp)), st'. split; [assumption|]. split; [assumption|]. split; [apply sort_strict, diff_nodup; assumption|].
  intros x Hx. apply sort_in, diff_in in Hx as (Hx & _). destruct (HS x Hx) as (Z & HZ & s & s' & H1 & H2).
  apply HI, remove1_in in Hx. split; [tauto|]. split; [tauto|]. exists s, Z, s'. auto.
Qed.

Section Exact.
  Context {St Score : Type}.
  Variable ci : St -> nat -> nat -> list nat -> res bool * St.
  Variable iter : St -> list nat -> list nat.
  Variable gt : Score -> Score -> bool.
  Variable heur : St -> nat -> nat -> list nat -> res Score * St.
  Variable U : list nat.
  Variable Inv : St -> Prop.
  Variable E : nat -> nat -> Prop.
  Variable SEP : nat -> list nat -> nat -> Prop.
  Hypothesis HD : dag_over U E.
  Hypothesis Hit : iterates iter.
  Hypothesis Hci : decides ci U Inv SEP.
  Hypothesis Hweak : forall x Z y, pearl E x Z y -> SEP x Z y.
  Hypothesis Hstrong : forall x Z y, SEP x Z y -> library_rule E x Z y.
  (** [better Z y]: y is scored above the variables that are not better, for the conditioning set Z *)
  Variable T : nat.
  Variable better : list nat -> nat -> Prop.
  Variable high : list nat -> Score -> Prop.
  Hypothesis Hgt : forall Z a b, high Z a -> ~ high Z b -> gt a b = true /\ gt b a = false.
  Hypothesis Hsc : forall st y Z, Inv st -> sensible_question U T y Z ->
       exists s st', heur st T y Z = (Ok s, st') /\ Inv st' /\ (high Z s <-> better Z y).
  Hypothesis Hbdec : forall Z y, sensible_question U T y Z -> better Z y \/ ~ better Z y.
  Hypothesis Hb1 : forall Z y, better Z y -> ~ SEP T Z y.
  Hypothesis Hb2 : forall Z y, adjacent E T y -> better Z y.
  Hypothesis Hb3 : forall Z y, Z <> [] -> ~ SEP T Z y -> better Z y.

  Lemma iamb_exact st : In T U -> Inv st ->
    exists MB st', (forall f, S (length U) <= f -> iamb_discover_mb ci iter gt heur U T st f = Ok (MB, st')) /\ Inv st' /\
      lists MB (markov_boundary E T).
  Proof.
    intros HT Hi. destruct HD as (HNU & Hac & Hin & Hdec).
    assert (Hsqdec : forall x Z, sensible_question U T x Z \/ ~ sensible_question U T x Z).
    { intros x Z. unfold sensible_question.
      destruct (Nat.eq_dec T x), (in_dec Nat.eq_dec T Z), (in_dec Nat.eq_dec x Z), (in_dec Nat.eq_dec T U), (in_dec Nat.eq_dec x U); try tauto.
      destruct (ListDec.NoDup_dec Nat.eq_dec Z); [|tauto]. destruct (ListDec.incl_dec Nat.eq_dec Z U); tauto. }
    destruct (iamb_ok ci iter gt heur U Inv (fun x y Z => SEP x Z y) (fun x y Z => ~ SEP x Z y) False
        (fun x y Z s => x = T /\ sensible_question U x y Z /\ (high Z s <-> better Z y)) Hit)
      with (T := T) (worthy := fun Z x => sensible_question U T x Z /\ better Z x) (U := U) (st := st)
      as (CMB & fp & st' & Er & Hi' & HNC & HI & _ & HG & HF & HK); try assumption.
    { intros s x y Z Hs Hq. destruct (Hci s x y Z Hs Hq) as (r & s' & E' & Hs' & Hr). exists (Ok r), s'. split; [assumption|]. split; [assumption|].
      destruct r; [left; split; [reflexivity|apply Hr; reflexivity]|right; left]. split; [reflexivity|]. intros H. apply Hr in H. discriminate. }
    { intros s y Z Hs Hq. destruct (Hsc s y Z Hs Hq) as (v & s' & E' & Hs' & Hv). exists v, s'. auto. }
    { intros CMB x y s t (_ & Hqx & Hs) (_ & Hqy & Ht) (_ & Hx) Hy. apply (Hgt CMB); [apply Hs; assumption|]. intros Hht. apply Hy. split; [assumption|apply Ht; assumption]. }
    { intros CMB x. destruct (Hsqdec x CMB) as [Hq|Hq]; [|tauto]. destruct (Hbdec CMB x Hq); tauto. }
    { intros CMB x H (_ & Hn). eapply Hb1; eauto. }
    { apply incl_refl. }
    assert (Hadj : forall x, adjacent E T x -> In x U /\ x <> T).
    { intros x Ha. split; [destruct Ha as [Ha|Ha]; apply Hin in Ha; tauto|]. intros ->. destruct Ha; eapply no_loop; eauto. }
    assert (Hopen : forall x Z, markov_boundary E T x -> (forall c, E T c -> c <> x -> In c Z) -> ~ SEP T Z x).
    { intros x Z [Ha|(HxT & c & HTc & Hxc)] Hc HS.
      - destruct (Hadj x Ha). eapply adjacent_not_sep1; [|exact Ha|exact (Hstrong _ _ _ HS)]. congruence.
      - apply (spouse_not_sep1 E Hac T c x (fun z => In z Z)); [congruence|assumption|assumption| |exact (Hstrong _ _ _ HS)].
        apply Hc; [assumption|]. intros ->. eapply no_loop; eauto. }
    assert (Hq : forall x, In x U -> x <> T -> ~ In x CMB -> sensible_question U T x CMB).
    { intros x H1 H2 H3. split; [congruence|]. split; [intros H; apply HI, remove1_in in H; tauto|]. split; [assumption|]. split; [assumption|].
      split; [assumption|]. split; [assumption|]. intros y Hy. apply HI, remove1_in in Hy. tauto. }
    assert (HMBin : forall x, markov_boundary E T x -> In x CMB).
    { assert (Ha : forall x, adjacent E T x -> In x CMB).
      { intros x Ha. destruct (Hadj x Ha) as (H1 & H2). destruct (in_dec Nat.eq_dec x CMB) as [H|Hn]; [assumption|]. exfalso.
        destruct (HG x H1 H2 Hn) as [[]|Hw]. apply Hw. split; [auto|]. apply Hb2. assumption. }
      intros x HM. destruct (in_dec Nat.eq_dec x CMB) as [H|Hn]; [assumption|]. exfalso.
      destruct HM as [Hx|(HxT & c & HTc & Hxc)]; [apply Hn; auto|].
      destruct (HG x) as [[]|Hw]; [apply (Hin x c Hxc)|assumption|assumption|]. apply Hw. split; [apply Hq; [apply (Hin x c Hxc)|assumption|assumption]|].
      apply Hb3; [intros Hnil; pose proof (Ha c (or_introl HTc)) as Hc; rewrite Hnil in Hc; destruct Hc|].
      apply Hopen; [right; split; eauto|]. intros c' Hc' _. apply Ha. left; assumption. }
    assert (Hnofp : forall x, In x fp -> ~ markov_boundary E T x).
    { apply HF. intros fp1 x HQ Hx HPT HM. eapply Hopen; [exact HM| |exact HPT].
      intros c Hc Hcx. apply remove1_in. split; [|assumption]. apply diff_in. split; [apply HMBin; left; left; assumption|].
      intros Hcf. apply (HQ c Hcf). left; left; assumption. }
    exists (sort_nat (set_diff CMB fp)), st'. split; [assumption|]. split; [assumption|]. split; [apply sort_strict, diff_nodup; assumption|].
    intros x. rewrite sort_in, diff_in. split.
    - intros (Hx & Hnf). destruct (HK x Hx Hnf) as [[]|(fp1 & Hfp & Hns)].
      assert (HMdec : markov_boundary E T x \/ ~ markov_boundary E T x).
      { unfold markov_boundary, parent_or_child, adjacent. destruct (Hdec T x); [tauto|]. destruct (Hdec x T); [tauto|].
        unfold spouse. assert (HxT : x <> T) by (apply HI, remove1_in in Hx; tauto).
        destruct (exists_dec (fun c => E T c /\ E x c) U) as [(c & _ & Hc)|Hn].
        { intros c. destruct (Hdec T c), (Hdec x c); tauto. } { left. right. eauto. }
        right. intros [H'|(_ & c & Hc)]; [tauto|]. apply Hn. exists c. split; [apply (Hin T); tauto|assumption]. }
      destruct HMdec as [H|HnM]; [assumption|]. exfalso. apply Hns, Hweak.
      apply boundary_separates; [exact Hac| | | |apply HI, remove1_in in Hx; tauto].
      + intros z Hz. apply remove1_in. split; [|intros ->; contradiction]. apply diff_in. split; [auto|]. intros Hf. apply Hfp in Hf. eapply Hnofp; eauto.
      + intros H. apply remove1_in in H as (H & _). apply diff_in in H as (H & _). apply HI, remove1_in in H. tauto.
      + intros H. apply remove1_in in H. tauto.
    - intros HM. split; [auto|]. intros Hf. eapply Hnofp; eauto.
  Qed.
End Exact.
