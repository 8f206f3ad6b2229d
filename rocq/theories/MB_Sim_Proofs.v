(** Two CI tests that answer alike make the algorithms return alike. *)
From Verif Require Import Base MB_Model.
Local Open Scope nat_scope.

Section Sim.
  Context {A B Score : Type}.
  Variables (ciA : A -> nat -> nat -> list nat -> res bool * A) (ciB : B -> nat -> nat -> list nat -> res bool * B).
  Variables (iterA : A -> list nat -> list nat) (iterB : B -> list nat -> list nat).
  Variables (gt : Score -> Score -> bool) (hA : A -> nat -> nat -> list nat -> res Score * A) (hB : B -> nat -> nat -> list nat -> res Score * B).
  Variable R : A -> B -> Prop.
  Hypothesis Hci : forall a b x y Z r a', R a b -> ciA a x y Z = (r, a') -> (r = Ok true \/ r = Ok false \/ r = Err InsufficientSamples) ->
    exists b', ciB b x y Z = (r, b') /\ R a' b'.
  Hypothesis Hit : forall a b l, R a b -> iterA a l = iterB b l.
  Hypothesis Hh : forall a b x y Z s a', R a b -> hA a x y Z = (Ok s, a') -> exists b', hB b x y Z = (Ok s, b') /\ R a' b'.

  Lemma sim_cutsets T X Zs : forall non c a b n c' a', R a b -> try_cutsets ciA T X Zs non c a = Ok (n, c', a') ->
    exists b', try_cutsets ciB T X Zs non c b = Ok (n, c', b') /\ R a' b'.
  Proof.
    induction Zs as [|Z Zs IH]; intros non c a b n c' a' HR; cbn [try_cutsets].
    - intros E. injection E as <- <- <-. eauto.
    - destruct (ciA a X T Z) as [[[]|e] a1] eqn:E; intros H.
      + destruct (Hci _ _ _ _ _ _ _ HR E) as (b1 & E1 & R1); [auto|]. rewrite E1. injection H as <- <- <-. eauto.
      + destruct (Hci _ _ _ _ _ _ _ HR E) as (b1 & E1 & R1); [auto|]. rewrite E1. eapply IH; eauto.
      + destruct e; try discriminate. destruct (Hci _ _ _ _ _ _ _ HR E) as (b1 & E1 & R1); [auto|]. rewrite E1. eapply IH; eauto.
  Qed.
  Lemma sim_round T Adj cut Xs : forall NonPC c a b n c' a', R a b -> pc_round ciA iterA T Adj Xs cut NonPC c a = Ok (n, c', a') ->
    exists b', pc_round ciB iterB T Adj Xs cut NonPC c b = Ok (n, c', b') /\ R a' b'.
  Proof.
    induction Xs as [|X Xs IH]; intros NonPC c a b n c' a' HR; cbn [pc_round].
    - intros E. injection E as <- <- <-. eauto.
    - rewrite <- (Hit a b _ HR). destruct (try_cutsets ciA T X _ false c a) as [[[non c1] a1]|] eqn:E; cbn [bind]; [|discriminate]. intros H.
      destruct (sim_cutsets _ _ _ _ _ _ _ _ _ _ HR E) as (b1 & E1 & R1). rewrite E1. cbn [bind]. eapply IH; eauto.
  Qed.
  Lemma sim_recognize T fuel : forall Adj cut c a b n c' a', R a b -> recognize_loop ciA iterA fuel T Adj cut c a = Ok (n, c', a') ->
    exists b', recognize_loop ciB iterB fuel T Adj cut c b = Ok (n, c', b') /\ R a' b'.
  Proof.
    induction fuel as [|fuel IH]; intros Adj cut c a b n c' a' HR; cbn [recognize_loop]; [discriminate|].
    rewrite <- (Hit a b _ HR). destruct (pc_round ciA iterA T Adj _ cut [] c a) as [[[NonPC c1] a1]|] eqn:E; cbn [bind]; [|discriminate]. intros H.
    destruct (sim_round _ _ _ _ _ _ _ _ _ _ _ HR E) as (b1 & E1 & R1). rewrite E1. cbn [bind].
    destruct (length (set_diff Adj NonPC) <=? S cut); [injection H as <- <- <-; eauto|]. eapply IH; eauto.
  Qed.
  Lemma sim_symmetry T U fuel Xs : forall PC sp c a b PC' sp' c' a', R a b -> symmetry_loop ciA iterA fuel T U Xs PC sp c a = Ok (PC', sp', c', a') ->
    exists b', symmetry_loop ciB iterB fuel T U Xs PC sp c b = Ok (PC', sp', c', b') /\ R a' b'.
  Proof.
    induction Xs as [|X Xs IH]; intros PC sp c a b PC' sp' c' a' HR; cbn [symmetry_loop].
    - intros E. injection E as <- <- <- <-. eauto.
    - unfold recognize_pc. destruct (recognize_loop ciA iterA fuel X (set_remove1 U X) 0 c a) as [[[PX c1] a1]|] eqn:E; cbn [bind]; [|discriminate]. intros H.
      destruct (sim_recognize _ _ _ _ _ _ _ _ _ _ HR E) as (b1 & E1 & R1). rewrite E1. cbn [bind]. destruct (mem T PX); eapply IH; eauto.
  Qed.
  Lemma sim_inner T X c Ys : forall MB a b MB' a', R a b -> spouse_inner ciA T X Ys MB c a = Ok (MB', a') ->
    exists b', spouse_inner ciB T X Ys MB c b = Ok (MB', b') /\ R a' b'.
  Proof.
    induction Ys as [|Y Ys IH]; intros MB a b MB' a' HR; cbn [spouse_inner].
    - intros E. injection E as <- <-. eauto.
    - destruct (mem Y MB); [apply IH; exact HR|]. destruct (sc_get [T; Y] c) as [sep|]; cbn [bind]; [|discriminate].
      destruct (ciA a T Y (set_union1 sep X)) as [[[]|e] a1] eqn:E; intros H.
      + destruct (Hci _ _ _ _ _ _ _ HR E) as (b1 & E1 & R1); [auto|]. rewrite E1. eapply IH; eauto.
      + destruct (Hci _ _ _ _ _ _ _ HR E) as (b1 & E1 & R1); [auto|]. rewrite E1. eapply IH; eauto.
      + destruct e; try discriminate. destruct (Hci _ _ _ _ _ _ _ HR E) as (b1 & E1 & R1); [auto|]. rewrite E1. eapply IH; eauto.
  Qed.
  Lemma sim_spouses T sp c Xs : forall MB a b MB' a', R a b -> spouse_loop ciA iterA T Xs MB sp c a = Ok (MB', a') ->
    exists b', spouse_loop ciB iterB T Xs MB sp c b = Ok (MB', b') /\ R a' b'.
  Proof.
    induction Xs as [|X Xs IH]; intros MB a b MB' a' HR; cbn [spouse_loop].
    - intros E. injection E as <- <-. eauto.
    - destruct (sc_get [T; X] sp) as [Ys|]; cbn [bind]; [|discriminate]. rewrite <- (Hit a b _ HR).
      destruct (spouse_inner ciA T X (iterA a Ys) MB c a) as [[M1 a1]|] eqn:E; cbn [bind]; [|discriminate]. intros H.
      destruct (sim_inner _ _ _ _ _ _ _ _ _ HR E) as (b1 & E1 & R1). rewrite E1. cbn [bind]. eapply IH; eauto.
  Qed.
  Theorem sim_ipcmb pc_only U T fuel a b MB a' : R a b -> ipcmb_discover_mb ciA iterA pc_only U T a fuel = Ok (MB, a') ->
    exists b', ipcmb_discover_mb ciB iterB pc_only U T b fuel = Ok (MB, b') /\ R a' b'.
  Proof.
    intros HR. unfold ipcmb_discover_mb, ipcmb, recognize_pc.
    destruct (recognize_loop ciA iterA fuel T (set_remove1 U T) 0 [] a) as [[[C c1] a1]|] eqn:E; cbn [bind]; [|discriminate].
    destruct (sim_recognize _ _ _ _ _ _ _ _ _ _ HR E) as (b1 & E1 & R1). rewrite E1. cbn [bind]. rewrite <- (Hit a1 b1 _ R1).
    destruct (symmetry_loop ciA iterA fuel T U (iterA a1 C) [] [] c1 a1) as [[[[PC sp] c2] a2]|] eqn:E2; cbn [bind]; [|discriminate].
    destruct (sim_symmetry _ _ _ _ _ _ _ _ _ _ _ _ _ R1 E2) as (b2 & E3 & R2). rewrite E3. cbn [bind].
    destruct pc_only; cbn [bind]; [intros H; injection H as <- <-; eauto|]. rewrite <- (Hit a2 b2 _ R2).
    destruct (spouse_loop ciA iterA T (iterA a2 PC) PC sp c2 a2) as [[M a3]|] eqn:E4; cbn [bind]; [|discriminate]. intros H. injection H as <- <-.
    destruct (sim_spouses _ _ _ _ _ _ _ _ _ R2 E4) as (b3 & E5 & R3). rewrite E5. cbn [bind]. eauto.
  Qed.

  Lemma sim_argmax T CMB xs : forall best score a b r a', R a b -> argmax gt hA T CMB best score xs a = Ok (r, a') ->
    exists b', argmax gt hB T CMB best score xs b = Ok (r, b') /\ R a' b'.
  Proof.
    induction xs as [|x xs IH]; intros best score a b r a' HR; cbn [argmax].
    - intros E. injection E as <- <-. eauto.
    - destruct (hA a T x CMB) as [[s|e] a1] eqn:E; [|discriminate]. intros H. destruct (Hh _ _ _ _ _ _ _ HR E) as (b1 & E1 & R1). rewrite E1. destruct (gt s score); eapply IH; eauto.
  Qed.
  Lemma sim_highest T cands CMB a b r a' : R a b -> highest_correlated_candidate iterA gt hA T cands CMB a = Ok (r, a') ->
    exists b', highest_correlated_candidate iterB gt hB T cands CMB b = Ok (r, b') /\ R a' b'.
  Proof.
    intros HR. unfold highest_correlated_candidate. rewrite <- (Hit a b _ HR). destruct (iterA a cands) as [|x xs]; [discriminate|].
    destruct (hA a T x CMB) as [[s|e] a1] eqn:E; [|discriminate]. intros H. destruct (Hh _ _ _ _ _ _ _ HR E) as (b1 & E1 & R1). rewrite E1. eapply sim_argmax; eauto.
  Qed.
  Lemma sim_grow T fuel : forall cands CMB a b r a', R a b -> grow ciA iterA gt hA fuel T cands CMB a = Ok (r, a') ->
    exists b', grow ciB iterB gt hB fuel T cands CMB b = Ok (r, b') /\ R a' b'.
  Proof.
    induction fuel as [|fuel IH]; intros cands CMB a b r a' HR; cbn [grow]; [discriminate|].
    destruct cands as [|c0 cs]; [intros E; injection E as <- <-; eauto|].
    destruct (highest_correlated_candidate iterA gt hA T (c0 :: cs) CMB a) as [[cand a1]|] eqn:E; cbn [bind]; [|discriminate].
    destruct (sim_highest _ _ _ _ _ _ _ HR E) as (b1 & E1 & R1). rewrite E1. cbn [bind].
    destruct (ciA a1 T cand CMB) as [[[]|e] a2] eqn:E2; intros H.
    - destruct (Hci _ _ _ _ _ _ _ R1 E2) as (b2 & E3 & R2); [auto|]. rewrite E3. injection H as <- <-. eauto.
    - destruct (Hci _ _ _ _ _ _ _ R1 E2) as (b2 & E3 & R2); [auto|]. rewrite E3. eapply IH; eauto.
    - destruct e; try discriminate. destruct (Hci _ _ _ _ _ _ _ R1 E2) as (b2 & E3 & R2); [auto|]. rewrite E3. eapply IH; eauto.
  Qed.
  Lemma sim_shrink T CMB Xs : forall fp a b r a', R a b -> shrink ciA T CMB Xs fp a = Ok (r, a') ->
    exists b', shrink ciB T CMB Xs fp b = Ok (r, b') /\ R a' b'.
  Proof.
    induction Xs as [|X Xs IH]; intros fp a b r a' HR; cbn [shrink].
    - intros E. injection E as <- <-. eauto.
    - destruct (ciA a T X (set_remove1 (set_diff CMB fp) X)) as [[[]|e] a1] eqn:E; intros H.
      + destruct (Hci _ _ _ _ _ _ _ HR E) as (b1 & E1 & R1); [auto|]. rewrite E1. eapply IH; eauto.
      + destruct (Hci _ _ _ _ _ _ _ HR E) as (b1 & E1 & R1); [auto|]. rewrite E1. eapply IH; eauto.
      + destruct e; try discriminate. destruct (Hci _ _ _ _ _ _ _ HR E) as (b1 & E1 & R1); [auto|]. rewrite E1. eapply IH; eauto.
  Qed.
  Theorem sim_iamb U T fuel a b MB a' : R a b -> iamb_discover_mb ciA iterA gt hA U T a fuel = Ok (MB, a') ->
    exists b', iamb_discover_mb ciB iterB gt hB U T b fuel = Ok (MB, b') /\ R a' b'.
  Proof.
    intros HR. unfold iamb_discover_mb.
    destruct (grow ciA iterA gt hA fuel T (set_remove1 U T) [] a) as [[C a1]|] eqn:E; cbn [bind]; [|discriminate].
    destruct (sim_grow _ _ _ _ _ _ _ _ HR E) as (b1 & E1 & R1). rewrite E1. cbn [bind]. rewrite <- (Hit a1 b1 _ R1).
    destruct (shrink ciA T C (iterA a1 C) [] a1) as [[M a2]|] eqn:E2; cbn [bind]; [|discriminate]. intros H. injection H as <- <-.
    destruct (sim_shrink _ _ _ _ _ _ _ _ R1 E2) as (b2 & E3 & R2). rewrite E3. cbn [bind]. eauto.
  Qed.
End Sim.
