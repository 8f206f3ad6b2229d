(** IPC-MB with a CI test that decides a separation relation of a DAG. *)
From Verif Require Import Base Graph_Spec Graph_Dsep_Proofs MB_Model MB_Spec MB_Cache_Proofs IPCMB_Proofs DAG_Sep_Proofs.

(** elements of a list with a decidable property *)
Lemma sublist_of {A} (P : A -> Prop) (l : list A) : (forall x, P x \/ ~ P x) -> NoDup l -> exists l', NoDup l' /\ forall x, In x l' <-> In x l /\ P x.
Proof.
  intros HP. induction 1 as [|x l Hx HN (l' & H1 & H2)]; [exists []; split; [constructor|simpl; tauto]|].
  destruct (HP x) as [Hp|Hp].
  - exists (x :: l'). split; [constructor; [rewrite H2; tauto|assumption]|]. intros y. simpl. rewrite H2. intuition (subst; auto).
  - exists l'. split; [assumption|]. intros y. rewrite H2. simpl. intuition (subst; auto; contradiction).
Qed.
Lemma exists_dec {A} (P : A -> Prop) (l : list A) : (forall x, P x \/ ~ P x) -> (exists x, In x l /\ P x) \/ ~ (exists x, In x l /\ P x).
Proof.
  intros HP. induction l as [|x l IH]; [right; intros (x & [] & _)|].
  destruct (HP x); [left; exists x; simpl; auto|]. destruct IH as [(y & H1 & H2)|IH]; [left; exists y; simpl; auto|].
  right. intros (y & [<-|Hy] & H'); eauto.
Qed.

Section Exact.
  Variable U : list nat.
  Variable E : nat -> nat -> Prop.
  Hypothesis HD : dag_over U E.
  Variable SEP : nat -> list nat -> nat -> Prop.
  Hypothesis Hweak : forall x Z y, pearl E x Z y -> SEP x Z y.
  Hypothesis Hstrong : forall x Z y, SEP x Z y -> library_rule E x Z y.
  Hypothesis Hsym : forall x Z y, SEP x Z y -> SEP y Z x.

  Notation PT := (fun x y Z => SEP x Z y).
  Notation PF := (fun x y Z => ~ SEP x Z y).
  Notation known := (known PT).
  Notation refused := (refused PF).
  Notation pc_outcome := (pc_outcome PF).

  Let HNU : NoDup U := proj1 HD.
  Let Hac : acyclic E := proj1 (proj2 HD).
  Let Hin : forall u v, E u v -> In u U /\ In v U := proj1 (proj2 (proj2 HD)).
  Let Hdec : forall u v, E u v \/ ~ E u v := proj2 (proj2 (proj2 HD)).

  Lemma adj_dec u v : adjacent E u v \/ ~ adjacent E u v.
  Proof. unfold adjacent. destruct (Hdec u v), (Hdec v u); tauto. Qed.
  Lemma spouse_dec T x : spouse E T x \/ ~ spouse E T x.
  Proof.
    unfold spouse. destruct (Nat.eq_dec x T) as [->|Hne]; [right; tauto|].
    destruct (exists_dec (fun c => E T c /\ E x c) U) as [(c & _ & Hc)|Hn].
    { intros c. destruct (Hdec T c), (Hdec x c); tauto. }
    - left. eauto.
    - right. intros (_ & c & Hc). apply Hn. exists c. split; [apply (Hin T); tauto|assumption].
  Qed.

  Lemma adj_not_sep T X Z : X <> T -> adjacent E T X -> ~ SEP T Z X.
  Proof. intros Hne Ha HS. eapply adjacent_not_sep1; [|exact Ha|exact (Hstrong _ _ _ HS)]. congruence. Qed.
  Lemma adj_not_known c T X : X <> T -> adjacent E T X -> ~ known c T X.
  Proof. intros Hne Ha (Z & _ & [H|H]); [|apply Hsym in H]; eapply adj_not_sep; eauto. Qed.

  (** RecognizePC keeps only neighbours and descendants *)
  Lemma outcome_sound T A : In T U -> pc_outcome U T A -> (forall X, adjacent E T X -> In X A) ->
    forall X, In X A -> ~ adjacent E T X -> ~ ~ descendant E T X.
  Proof.
    intros HTU (HNA & HIA & HR) Hall X HX Hna Hnd.
    assert (HXT : X <> T) by (apply HIA, remove1_in in HX; tauto).
    destruct (sublist_of (fun z => E z T) U (fun z => Hdec z T) HNU) as (P & HP1 & HP2).
    assert (HPE : forall z, In z P <-> E z T) by (intros z; rewrite HP2; split; [tauto|intros H; split; [apply (Hin z T H)|assumption]]).
    assert (HPA : incl P A) by (intros z Hz; apply Hall; right; apply HPE; assumption).
    assert (HXP : ~ In X P) by (intros H; apply Hna; right; apply HPE; assumption).
    assert (Hlt : length P < length A).
    { apply (NoDup_incl_length (l := X :: P)); [constructor; assumption|]. intros z [<-|Hz]; auto. }
    destruct (HR X (length P) HX Hlt P HP1 HPA HXP eq_refl) as (Z & HZ & Hns). apply Hns. apply Hsym, Hweak.
    apply parents_separate; [exact Hac| |assumption|assumption|exact Hnd].
    intros z. rewrite <- HPE. split; apply Permutation_in; [|apply Permutation_sym]; assumption.
  Qed.

  Section OneRun.
    Variables (T : nat) (PC : list nat) (sp c : setcache).
    Hypothesis HTU : In T U.
    Hypothesis Hev : pc_evidence PT PF False U T PC c.
    Hypothesis Hcs : cand_spouses PT PF False U T sp c PC.

    Lemma PC_complete X : adjacent E T X -> In X PC.
    Proof.
      intros Ha. assert (HXT : X <> T) by (intros ->; destruct Ha; eapply no_loop; eauto).
      destruct (in_dec Nat.eq_dec X PC) as [H|Hn]; [assumption|]. exfalso.
      destruct Hev as (_ & _ & _ & H). assert (HXU : In X U) by (destruct Ha as [Ha|Ha]; apply Hin in Ha; tauto).
      destruct (H HTU X HXU HXT Hn) as [[]|Hk]. eapply adj_not_known; eauto.
    Qed.
    Lemma PC_sound X : In X PC -> adjacent E T X.
    Proof.
      intros HX. destruct (adj_dec T X) as [H|Hna]; [assumption|]. exfalso.
      destruct Hev as (_ & HI & (A & HA & HPA & HKA) & _).
      destruct (proj1 (remove1_in _ _ _) (HI X HX)) as (HXU & HXT).
      assert (HallT : forall Y, adjacent E T Y -> In Y A) by (intros Y HY; apply HPA, PC_complete; assumption).
      destruct (Hcs X HX) as (B & HB & HTB & _ & HKB).
      assert (HallX : forall Y, adjacent E X Y -> In Y B).
      { intros Y HY. assert (HYX : Y <> X) by (intros ->; destruct HY; eapply no_loop; eauto).
        destruct (in_dec Nat.eq_dec Y B) as [Hy|Hn]; [assumption|]. exfalso.
        assert (HYU : In Y U) by (destruct HY as [HY|HY]; apply Hin in HY; tauto).
        destruct (HKB Y HYU HYX Hn) as [[]|Hk]. eapply adj_not_known; eauto. }
      apply (outcome_sound T A HTU HA HallT X (HPA X HX) Hna). intros HTX.
      apply (outcome_sound X B HXU HB HallX T HTB); [intros H; apply Hna; unfold adjacent in *; tauto|]. intros HXT'.
      apply HXT. eapply desc_antisym; eauto.
    Qed.
    Lemma cand_all X B : In X PC -> (forall Y, In Y U -> Y <> X -> ~ In Y B -> False \/ known c X Y) -> forall Y, adjacent E X Y -> In Y B.
    Proof.
      intros HX HKB Y HY. assert (HYX : Y <> X) by (intros ->; destruct HY; eapply no_loop; eauto).
      destruct (in_dec Nat.eq_dec Y B) as [Hy|Hn]; [assumption|]. exfalso.
      assert (HYU : In Y U) by (destruct HY as [HY|HY]; apply Hin in HY; tauto).
      destruct (HKB Y HYU HYX Hn) as [[]|Hk]. eapply adj_not_known; eauto.
    Qed.

    Variable MB : list nat.
    Hypothesis HPM : incl PC MB.
    Hypothesis HMU : incl MB (set_remove1 U T).
    Hypothesis HS : forall Y, In Y MB -> In Y PC \/ (~ In Y PC /\ exists X Ys, In X PC /\ sc_get [T; X] sp = Ok Ys /\ In Y Ys /\ spouse_test PF c T X Y).
    Hypothesis HC : forall X Ys Y, In X PC -> sc_get [T; X] sp = Ok Ys -> In Y Ys -> In Y MB \/ False \/ spouse_test PT c T X Y.

    Lemma MB_complete Y : markov_boundary E T Y -> In Y MB.
    Proof.
      intros [Ha|(HYT & X & HTX & HYX)]; [apply HPM, PC_complete; assumption|].
      assert (HX : In X PC) by (apply PC_complete; left; assumption).
      destruct (Hcs X HX) as (B & HB & HTB & Es & HKB).
      destruct (HC X (set_remove1 B T) Y HX Es) as [?|[[]|(sep & _ & Ht)]]; [| assumption|].
      - apply remove1_in. split; [|assumption]. eapply cand_all; eauto. right; assumption.
      - exfalso. apply (spouse_not_sep1 E Hac T X Y (fun z => In z (set_union1 sep X))); [congruence|assumption|assumption|apply add_in; auto|exact (Hstrong _ _ _ Ht)].
    Qed.

    (** for the library's rule as for Pearl's the answer contains the whole boundary; exactness needs Pearl's rule *)
    Hypothesis HPearl : forall x Z y, SEP x Z y -> pearl E x Z y.
    Lemma MB_sound Y : In Y MB -> markov_boundary E T Y.
    Proof.
      intros HY. destruct (HS Y HY) as [HP|(HnP & X & Ys & HX & Es & HYs & (sep & Ec & Hns))]; [left; apply PC_sound; assumption|].
      right. destruct (spouse_dec T Y) as [H|Hnsp]; [assumption|]. exfalso.
      destruct (proj1 (remove1_in _ _ _) (HMU Y HY)) as (HYU & HYT).
      destruct (Hcs X HX) as (B & HB & HTB & Es' & HKB). rewrite Es in Es'. injection Es' as ->.
      apply remove1_in in HYs as (HYB & _).
      assert (HYX : Y <> X) by (destruct HB as (_ & HBI & _); apply HBI, remove1_in in HYB; tauto).
      assert (HXU : In X U) by (destruct Hev as (_ & HI & _); apply HI, remove1_in in HX; tauto).
      assert (Hsep : pearl E T sep Y).
      { destruct Hev as (_ & _ & _ & H). destruct (H HTU Y HYU HYT HnP) as [[]|(sep' & Ec' & Hs)]. rewrite Ec in Ec'. injection Ec' as <-.
        apply HPearl. destruct Hs as [?|?]; [assumption|apply Hsym; assumption]. }
      pose proof (PC_sound X HX) as HTX.
      assert (HXs : ~ In X sep).
      { intros Hx. apply Hns, Hweak. eapply d_sep_ext; [|exact Hsep]. intros z. unfold set_union1. rewrite add_in. split; [auto|]. intros [->|?]; assumption. }
      assert (Hclose : (exists W, In W sep /\ clos_trans _ E X W) -> False).
      { intros (W & HW & HXW). apply Hns, Hweak. eapply d_sep_ext; [|apply (sep_add E T Y X W (fun z => In z sep) HW HXW Hsep)].
        intros z. simpl. unfold set_union1. rewrite add_in. reflexivity. }
      assert (Hdesc : ~ descendant E X Y).
      { intros Hd. apply Hclose. eapply (separator_below E Hac T X Y (fun z => In z sep)); eauto. }
      destruct (adj_dec X Y) as [[HXY|HYX']|Hna].
      - apply Hdesc, rt_step. assumption.
      - apply Hnsp. split; [assumption|]. exists X. split; [|assumption]. eapply (separator_above E Hac T X Y (fun z => In z sep)); eauto.
      - apply (outcome_sound X B HXU HB (cand_all X B HX HKB) Y HYB Hna). exact Hdesc.
    Qed.
  End OneRun.
End Exact.

Section Runs.
  Context {St : Type}.
  Variable ci : St -> nat -> nat -> list nat -> res bool * St.
  Variable iter : St -> list nat -> list nat.
  Variable U : list nat.
  Variable Inv : St -> Prop.
  Variable E : nat -> nat -> Prop.
  Variable SEP : nat -> list nat -> nat -> Prop.
  Hypothesis HD : dag_over U E.
  Hypothesis Hit : iterates iter.
  Hypothesis Hci : decides ci U Inv SEP.
  Hypothesis Hweak : forall x Z y, pearl E x Z y -> SEP x Z y.
  Hypothesis Hstrong : forall x Z y, SEP x Z y -> library_rule E x Z y.
  Hypothesis Hsym : forall x Z y, SEP x Z y -> SEP y Z x.

  Lemma decides_answers : forall st x y Z, Inv st -> sensible_question U x y Z ->
    exists r st', ci st x y Z = (r, st') /\ Inv st' /\
      ((r = Ok true /\ SEP x Z y) \/ (r = Ok false /\ ~ SEP x Z y) \/ (r = Err InsufficientSamples /\ False)).
  Proof.
    intros st x y Z Hi Hq. destruct (Hci st x y Z Hi Hq) as (r & st' & E' & Hi' & Hr). exists (Ok r), st'.
    split; [assumption|]. split; [assumption|]. destruct r; [left; split; [reflexivity|apply Hr; reflexivity]|right; left].
    split; [reflexivity|]. intros H. apply Hr in H. discriminate.
  Qed.

  Lemma ipcmb_exact T st : In T U -> Inv st ->
    (exists PC st', (forall f, S (length U) <= f -> ipcmb_discover_mb ci iter true U T st f = Ok (PC, st')) /\ Inv st' /\
       lists PC (parent_or_child E T)) /\
    (exists MB st', (forall f, S (length U) <= f -> ipcmb_discover_mb ci iter false U T st f = Ok (MB, st')) /\ Inv st' /\
       StronglySorted lt MB /\ (forall x, In x MB -> In x U /\ x <> T) /\ (forall x, markov_boundary E T x -> In x MB) /\
       ((forall x Z y, SEP x Z y -> pearl E x Z y) -> lists MB (markov_boundary E T))).
  Proof.
    intros HT Hi.
    destruct (ipcmb_ok ci iter U Inv (fun x y Z => SEP x Z y) (fun x y Z => ~ SEP x Z y) False Hit decides_answers U T st (incl_refl U) HT (proj1 HD) Hi)
      as (PC & sp & c & st1 & Hi1 & _ & Hev & Hcs & E1 & MB & st2 & Hi2 & E2 & HNM & HPM & HMU & HS & HC).
    split.
    - exists (sort_nat PC), st1. split; [intros f Hf; unfold ipcmb_discover_mb; rewrite E1 by assumption; reflexivity|]. split; [assumption|].
      split; [apply sort_strict, Hev|]. intros x. rewrite sort_in. split; [eapply PC_sound; eauto|eapply PC_complete; eauto].
    - exists (sort_nat MB), st2. split; [intros f Hf; unfold ipcmb_discover_mb; rewrite E2 by assumption; reflexivity|]. split; [assumption|].
      assert (Hcomp : forall x, markov_boundary E T x -> In x MB) by (intros x; eapply MB_complete; eauto).
      split; [apply sort_strict; assumption|]. split; [intros x Hx; apply sort_in, HMU, remove1_in in Hx; assumption|].
      split; [intros x Hx; apply sort_in; auto|].
      intros HP. split; [apply sort_strict; assumption|]. intros x. rewrite sort_in. split; [|auto]. eapply MB_sound; eauto.
  Qed.
End Runs.
