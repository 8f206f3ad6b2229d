From Verif Require Import Base MB_Model MB_Cache_Proofs PCMB_Model.

Definition out {A B} (r : res (A * B)) : res A := match r with Ok (a, _) => Ok a | Err e => Err e end.
Definition no_oof {A} (r : res A) := r <> Err OutOfFuel.

Lemma bind_no_oof {A B} (x : res A) (f : A -> res B) : no_oof x -> (forall a, x = Ok a -> no_oof (f a)) -> no_oof (bind x f).
Proof. unfold no_oof. destruct x as [a|e]; simpl; intros H1 H2; [auto|congruence]. Qed.

Section PCMB.
  Context {Score : Type}.
  Variable ci : nat -> nat -> list nat -> res bool.
  Variable heur : nat -> nat -> list nat -> res Score.
  Variable lt : Score -> Score -> bool.
  Variable iter : list nat -> list nat.
  Variable target : nat.
  Variable U : list nat.
  Hypothesis Hiter : forall l, Permutation l (iter l).

  Lemma iter_In l x : In x (iter l) <-> In x l.
  Proof. split; apply Permutation_in; [apply Permutation_sym|]; apply Hiter. Qed.

  Lemma min_from_in {A} (key : A -> res Score) : forall l best s r, min_from lt key best s l = Ok r -> r = best \/ In r l.
  Proof.
    induction l as [|x l IH]; simpl; intros best s r E; [left; congruence|].
    apply bind_ok in E as (t & _ & E). destruct (lt t s); apply IH in E; intuition.
  Qed.
  Lemma min_by_in {A} (key : A -> res Score) l r : min_by lt key l = Ok r -> In r l.
  Proof. destruct l as [|x l]; simpl; [discriminate|]. intros E. apply bind_ok in E as (s & _ & E). apply min_from_in in E. intuition. Qed.
  Lemma min_from_ext {A} (k1 k2 : A -> res Score) : forall l best s, (forall x, In x l -> k1 x = k2 x) -> min_from lt k1 best s l = min_from lt k2 best s l.
  Proof.
    induction l as [|x l IH]; simpl; intros best s H; [reflexivity|]. rewrite (H x) by auto. destruct (k2 x) as [t|]; simpl; [|reflexivity].
    destruct (lt t s); apply IH; auto.
  Qed.
  Lemma min_by_ext {A} (k1 k2 : A -> res Score) l : (forall x, In x l -> k1 x = k2 x) -> min_by lt k1 l = min_by lt k2 l.
  Proof.
    destruct l as [|x l]; simpl; intros H; [reflexivity|]. rewrite (H x) by auto. destruct (k2 x); simpl; [|reflexivity]. apply min_from_ext. auto.
  Qed.

  (** *** the outcome of GetPCD does not depend on the two dictionaries *)
  Definition agree (Xs : list nat) (c1 c2 : dict) := forall x, In x Xs -> dget c1 x = dget c2 x.
  Lemma dget_same c k v : dget (dset c k v) k = Ok v.
  Proof. unfold dget, dset. rewrite assoc_set_same. reflexivity. Qed.
  Lemma dget_other c k k' v : k <> k' -> dget (dset c k' v) k = dget c k.
  Proof. intros H. unfold dget, dset. rewrite assoc_set_other by assumption. reflexivity. Qed.

  Lemma fill_agree sep : forall Xs L c1 c2, agree L c1 c2 ->
    (exists e, fill sep Xs c1 = Err e /\ fill sep Xs c2 = Err e) \/
    (exists c1' c2', fill sep Xs c1 = Ok c1' /\ fill sep Xs c2 = Ok c2' /\ agree (Xs ++ L) c1' c2').
  Proof.
    induction Xs as [|X Xs IH]; intros L c1 c2 Ha; simpl; [right; eauto|].
    destruct (sep X) as [Z|e]; simpl; [|left; eauto].
    destruct (IH (X :: L) (dset c1 X Z) (dset c2 X Z)) as [?|(c1' & c2' & E1 & E2 & H)]; [|auto|].
    - intros x Hx. destruct (Nat.eq_dec x X) as [->|Hne]; [rewrite !dget_same; reflexivity|]. rewrite !dget_other by assumption.
      apply Ha. destruct Hx; [congruence|assumption].
    - right. exists c1', c2'. split; [assumption|]. split; [assumption|]. intros x Hx. apply H. apply in_app_iff. simpl in *. rewrite in_app_iff in Hx. tauto.
  Qed.
  Lemma find_false_agree : forall Xs c1 c2 fp z1 z2, agree Xs c1 c2 ->
    out (find_false ci target Xs c1 fp z1) = out (find_false ci target Xs c2 fp z2).
  Proof.
    induction Xs as [|X Xs IH]; intros c1 c2 fp z1 z2 Ha; simpl; [reflexivity|].
    rewrite (Ha X) by (left; reflexivity). destruct (dget c2 X) as [Z|e]; simpl; [|reflexivity]. destruct (ci target X Z) as [[|]|e]; simpl; [| |reflexivity];
      apply IH; intros x Hx; apply Ha; right; assumption.
  Qed.
  Lemma pcd_det : forall fuel PCD cand c1 z1 c2 z2,
    out (pcd_loop ci heur lt iter target fuel PCD cand c1 z1) = out (pcd_loop ci heur lt iter target fuel PCD cand c2 z2).
  Proof.
    induction fuel as [|fuel IH]; intros PCD cand c1 z1 c2 z2; [reflexivity|]. cbn [pcd_loop].
    destruct (fill_agree (strongest_separator heur lt iter target PCD) (iter cand) [] c1 c2) as [(e & -> & ->)|(d1 & d2 & -> & -> & Hd)]; [intros x []|reflexivity|].
    rewrite app_nil_r in Hd. cbn [bind].
    pose proof (find_false_agree (iter cand) d1 d2 [] z1 z2 Hd) as Hf.
    destruct (find_false ci target (iter cand) d1 [] z1) as [(fp & s1)|e]; destruct (find_false ci target (iter cand) d2 [] z2) as [(fp' & s2)|e']; simpl in Hf; try discriminate;
      [injection Hf as <-|injection Hf as <-; reflexivity]. cbn [bind].
    assert (Hh : highest_sep heur lt iter target (set_diff cand fp) d1 = highest_sep heur lt iter target (set_diff cand fp) d2).
    { unfold highest_sep. apply min_by_ext. intros x Hx. apply iter_In, diff_in in Hx as (Hx & _). rewrite (Hd x); [reflexivity|]. apply iter_In. assumption. }
    rewrite Hh. destruct (highest_sep heur lt iter target (set_diff cand fp) d2) as [c|e]; [|reflexivity]. cbn [bind].
    destruct (fill_agree (fun X => strongest_separator heur lt iter target (set_remove1 (set_add c PCD) X) X) (iter (set_add c PCD)) [] d1 d2) as [(e & -> & ->)|(e1 & e2 & -> & -> & He)]; [intros x []|reflexivity|].
    rewrite app_nil_r in He. cbn [bind].
    pose proof (find_false_agree (iter (set_add c PCD)) e1 e2 [] s1 s2 He) as Hf2.
    destruct (find_false ci target (iter (set_add c PCD)) e1 [] s1) as [(fp2 & t1)|e]; destruct (find_false ci target (iter (set_add c PCD)) e2 [] s2) as [(fp2' & t2)|e']; simpl in Hf2; try discriminate;
      [injection Hf2 as <-|injection Hf2 as <-; reflexivity]. cbn [bind].
    destruct fp2; [reflexivity|apply IH].
  Qed.
  Lemma pcd_sub : forall fuel PCD cand c z r d, pcd_loop ci heur lt iter target fuel PCD cand c z = Ok (r, d) -> forall x, In x r -> In x PCD \/ In x cand.
  Proof.
    induction fuel as [|fuel IH]; intros PCD cand c z r d E x Hx; [discriminate|]. cbn [pcd_loop] in E.
    apply bind_ok in E as (c1 & _ & E). apply bind_ok in E as ((fp & z1) & _ & E). apply bind_ok in E as (cd & Eh & E).
    apply bind_ok in E as (c2 & _ & E). apply bind_ok in E as ((fp2 & z2) & _ & E).
    unfold highest_sep in Eh. apply min_by_in, iter_In, diff_in in Eh as (Hcd & _).
    destruct fp2 as [|f fp2].
    - injection E as <- <-. apply diff_in in Hx as (Hx & _). apply add_in in Hx as [->|Hx]; auto.
    - destruct (IH _ _ _ _ _ _ E x Hx) as [H|H].
      + apply diff_in in H as (H & _). apply add_in in H as [->|H]; auto.
      + apply remove1_in in H as (H & _). apply diff_in in H as (H & _). auto.
  Qed.

  Lemma get_pcd_det fuel X d1 d2 r1 e1 r2 e2 : get_pcd ci heur lt iter target U fuel X d1 = Ok (r1, e1) ->
    get_pcd ci heur lt iter target U fuel X d2 = Ok (r2, e2) -> r1 = r2.
  Proof.
    unfold get_pcd. intros E1 E2. pose proof (pcd_det fuel [] (set_remove1 U X) (fst d1) (snd d1) (fst d2) (snd d2)) as H.
    rewrite E1, E2 in H. simpl in H. congruence.
  Qed.
  Lemma get_pc_loop_in fuel T : forall Xs PC d r e, get_pc_loop ci heur lt iter target U fuel T Xs PC d = Ok (r, e) ->
    forall x, In x r <-> In x PC \/ (In x Xs /\ exists P d' d'', get_pcd ci heur lt iter target U fuel x d' = Ok (P, d'') /\ In T P).
  Proof.
    induction Xs as [|X Xs IH]; simpl; intros PC d r e E x.
    - injection E as <- <-. intuition.
    - apply bind_ok in E as ((P & d1) & EP & E). rewrite (IH _ _ _ _ E x). clear IH E. destruct (mem T P) eqn:Em.
      + apply mem_In in Em. rewrite add_in. split.
        * intros [[->|H]|(H & H')]; [right; split; [auto|eauto 6]|auto|auto].
        * intros [H|([->|H] & H')]; auto.
      + apply mem_false in Em. split; [intros [H|(H & H')]; auto|]. intros [H|([->|H] & P' & d' & d'' & EP' & HT)]; [auto| |eauto 9].
        rewrite (get_pcd_det _ _ _ _ _ _ _ _ EP EP') in Em. contradiction.
  Qed.
  Lemma get_pc_in fuel T d r e : get_pc ci heur lt iter target U fuel T d = Ok (r, e) ->
    exists P d1, get_pcd ci heur lt iter target U fuel T d = Ok (P, d1) /\
      forall x, In x r <-> In x P /\ exists Q d' d'', get_pcd ci heur lt iter target U fuel x d' = Ok (Q, d'') /\ In T Q.
  Proof.
    unfold get_pc. intros E. apply bind_ok in E as ((P & d1) & EP & E). exists P, d1. split; [assumption|].
    intros x. rewrite (get_pc_loop_in _ _ _ _ _ _ _ E x), iter_In. simpl. intuition.
  Qed.

  Lemma spouses_fail Y PC d : forall Xs, (exists X, In X Xs /\ ~ In X PC) -> forall v, spouses_of ci target Y Xs PC d <> Ok v.
  Proof.
    induction Xs as [|X Xs IH]; intros (x & Hx & Hn) v; [destruct Hx|]. simpl. destruct (mem X PC) eqn:Em.
    - apply mem_In in Em. apply IH. exists x. split; [|assumption]. destruct Hx; [subst; contradiction|assumption].
    - destruct (dget (snd d) X) as [Z|e]; [|discriminate]. simpl. destruct (ci target X Z) as [[|]|e]; discriminate.
  Qed.

  Lemma pcmb_only_empty fuel MB : pcmb_discover_mb ci heur lt iter target U fuel = Ok MB -> MB = [].
  Proof.
    unfold pcmb_discover_mb. intros E. apply bind_ok in E as ((PC & d) & EPC & E). apply bind_ok in E as (MB' & EL & E). injection E as <-.
    destruct (iter PC) as [|Y Ys] eqn:Ei; simpl in EL.
    - injection EL as <-. pose proof (Hiter PC) as Hp. rewrite Ei in Hp. apply Permutation_sym, Permutation_nil in Hp. subst. reflexivity.
    - exfalso. apply bind_ok in EL as ((PCY & d1) & EY & EL). apply bind_ok in EL as (v & ES & _).
      assert (HY : In Y PC) by (apply iter_In; rewrite Ei; left; reflexivity).
      destruct (get_pc_in _ _ _ _ _ EPC) as (PT & d2 & EPT & HPC). destruct (get_pc_in _ _ _ _ _ EY) as (PY & d3 & EPY & HPY).
      destruct (proj1 (HPC Y) HY) as (HYT & PY' & d4 & d5 & EPY' & HTY). rewrite <- (get_pcd_det _ _ _ _ _ _ _ _ EPY EPY') in HTY.
      assert (HT : In target PCY) by (apply HPY; split; [assumption|eauto 6]).
      assert (HnT : ~ In target PC).
      { intros H. apply HPC in H as (H & _). unfold get_pcd in EPT. destruct (pcd_sub _ _ _ _ _ _ _ EPT _ H) as [[]|H']. apply remove1_in in H'. tauto. }
      eapply spouses_fail; [|exact ES]. exists target. split; [apply iter_In; assumption|assumption].
  Qed.

  (** *** termination *)
  Hypothesis Hci : forall x y Z, no_oof (ci x y Z).
  Hypothesis Hheur : forall x y Z, no_oof (heur x y Z).
  Lemma min_from_no {A} (key : A -> res Score) : (forall x, no_oof (key x)) -> forall l best s, no_oof (min_from lt key best s l).
  Proof.
    intros Hk. induction l as [|x l IH]; simpl; intros best s; [discriminate|]. apply bind_no_oof; [apply Hk|]. intros t _. destruct (lt t s); apply IH.
  Qed.
  Lemma min_by_no {A} (key : A -> res Score) l : (forall x, no_oof (key x)) -> no_oof (min_by lt key l).
  Proof. intros Hk. destruct l; simpl; [discriminate|]. apply bind_no_oof; [apply Hk|]. intros; apply min_from_no; assumption. Qed.
  Lemma dget_no d k : no_oof (dget d k). Proof. unfold dget, no_oof. destruct (assoc Nat.eqb k d); discriminate. Qed.
  Lemma fill_no sep : (forall X, no_oof (sep X)) -> forall Xs c, no_oof (fill sep Xs c).
  Proof. intros H. induction Xs; simpl; intros c; [discriminate|]. apply bind_no_oof; auto. Qed.
  Lemma sep_no PCD X : no_oof (strongest_separator heur lt iter target PCD X).
  Proof. apply min_by_no. intros; apply Hheur. Qed.
  Lemma find_false_no : forall Xs c fp z, no_oof (find_false ci target Xs c fp z).
  Proof.
    induction Xs; simpl; intros c fp z; [discriminate|]. apply bind_no_oof; [apply dget_no|]. intros Z _. apply bind_no_oof; [apply Hci|].
    intros b _. destruct b; apply IHXs.
  Qed.
  Lemma remove1_shorter l c : In c l -> length (set_remove1 l c) < length l.
  Proof.
    unfold set_remove1. induction l as [|x l IH]; [intros []|]. simpl. intros [->|H].
    - rewrite Nat.eqb_refl. simpl. assert (length (filter (fun y => negb (y =? c)) l) <= length l); [|lia]. clear. induction l as [|y l IH]; simpl; [lia|]. destruct (negb (y =? c)); simpl; lia.
    - specialize (IH H). destruct (negb (x =? c)); simpl; lia.
  Qed.
  Lemma diff_shorter l t : length (set_diff l t) <= length l.
  Proof. unfold set_diff. induction l as [|x l IH]; simpl; [lia|]. destruct (negb (mem x t)); simpl; lia. Qed.
  Lemma pcd_terminates : forall f PCD cand c z, length cand < f ->
    no_oof (pcd_loop ci heur lt iter target f PCD cand c z) /\ forall f', f <= f' -> pcd_loop ci heur lt iter target f' PCD cand c z = pcd_loop ci heur lt iter target f PCD cand c z.
  Proof.
    induction f as [|f IH]; intros PCD cand c z Hf; [lia|].
    assert (Hstep : forall c1 fp cd c2 x fp2 z2, highest_sep heur lt iter target (set_diff cand fp) c1 = Ok cd ->
       no_oof (pcd_loop ci heur lt iter target f (set_diff (set_add cd PCD) (x :: fp2)) (set_remove1 (set_diff cand fp) cd) c2 z2) /\
       forall f', f <= f' -> pcd_loop ci heur lt iter target f' (set_diff (set_add cd PCD) (x :: fp2)) (set_remove1 (set_diff cand fp) cd) c2 z2 =
                             pcd_loop ci heur lt iter target f (set_diff (set_add cd PCD) (x :: fp2)) (set_remove1 (set_diff cand fp) cd) c2 z2).
    { intros c1 fp cd c2 x fp2 z2 Eh. apply IH. unfold highest_sep in Eh. apply min_by_in in Eh. apply (proj1 (iter_In _ _)) in Eh. apply remove1_shorter in Eh. pose proof (diff_shorter cand fp). lia. }
    split.
    - cbn [pcd_loop]. apply bind_no_oof; [apply fill_no; intros; apply sep_no|]. intros c1 _. apply bind_no_oof; [apply find_false_no|]. intros (fp & z1) _.
      apply bind_no_oof; [apply min_by_no; intros x; apply bind_no_oof; [apply dget_no|intros; apply Hheur]|]. intros cd Eh.
      apply bind_no_oof; [apply fill_no; intros; apply sep_no|]. intros c2 _. apply bind_no_oof; [apply find_false_no|]. intros (fp2 & z2) _.
      destruct fp2 as [|x fp2]; [discriminate|]. eapply Hstep; eauto.
    - intros [|f'] Hf'; [lia|]. cbn [pcd_loop].
      destruct (fill _ (iter cand) c) as [c1|e]; [|reflexivity]. cbn [bind]. destruct (find_false ci target (iter cand) c1 [] z) as [(fp & z1)|e]; [|reflexivity]. cbn [bind].
      destruct (highest_sep heur lt iter target (set_diff cand fp) c1) as [cd|e] eqn:Eh; [|reflexivity]. cbn [bind].
      destruct (fill _ (iter (set_add cd PCD)) c1) as [c2|e]; [|reflexivity]. cbn [bind].
      destruct (find_false ci target (iter (set_add cd PCD)) c2 [] z1) as [(fp2 & z2)|e]; [|reflexivity]. cbn [bind].
      destruct fp2 as [|x fp2]; [reflexivity|]. eapply Hstep; [eauto|lia].
  Qed.
  Lemma get_pcd_terminates T d : no_oof (get_pcd ci heur lt iter target U (S (length U)) T d) /\
    forall f, S (length U) <= f -> get_pcd ci heur lt iter target U f T d = get_pcd ci heur lt iter target U (S (length U)) T d.
  Proof.
    apply pcd_terminates. assert (length (set_remove1 U T) <= length U); [|lia]. unfold set_remove1. clear. induction U as [|x l IH]; simpl; [lia|]. destruct (negb (x =? T)); simpl; lia.
  Qed.
  Lemma get_pc_loop_terminates T f : S (length U) <= f -> forall Xs PC d, no_oof (get_pc_loop ci heur lt iter target U (S (length U)) T Xs PC d) /\
    get_pc_loop ci heur lt iter target U f T Xs PC d = get_pc_loop ci heur lt iter target U (S (length U)) T Xs PC d.
  Proof.
    intros Hf. induction Xs as [|X Xs IH]; intros PC d; cbn [get_pc_loop]; [split; [discriminate|reflexivity]|].
    destruct (get_pcd_terminates X d) as (H1 & H2). rewrite (H2 f Hf).
    destruct (get_pcd ci heur lt iter target U (S (length U)) X d) as [(P & d1)|e]; cbn [bind]; [apply IH|split; [exact H1|reflexivity]].
  Qed.
  Lemma get_pc_terminates T f d : S (length U) <= f -> no_oof (get_pc ci heur lt iter target U (S (length U)) T d) /\
    get_pc ci heur lt iter target U f T d = get_pc ci heur lt iter target U (S (length U)) T d.
  Proof.
    intros Hf. unfold get_pc. destruct (get_pcd_terminates T d) as (H1 & H2). rewrite (H2 f Hf).
    destruct (get_pcd ci heur lt iter target U (S (length U)) T d) as [(P & d1)|e]; cbn [bind]; [apply get_pc_loop_terminates; assumption|split; [exact H1|reflexivity]].
  Qed.
  Lemma spouses_no Y PC d : forall Xs, no_oof (spouses_of ci target Y Xs PC d).
  Proof.
    induction Xs as [|X Xs IH]; simpl; [discriminate|]. destruct (mem X PC); [assumption|]. apply bind_no_oof; [apply dget_no|].
    intros Z _. apply bind_no_oof; [apply Hci|]. intros [|] _; discriminate.
  Qed.
  Lemma pcmb_loop_terminates f PC : S (length U) <= f -> forall Ys d, no_oof (pcmb_loop ci heur lt iter target U (S (length U)) Ys PC d) /\
    pcmb_loop ci heur lt iter target U f Ys PC d = pcmb_loop ci heur lt iter target U (S (length U)) Ys PC d.
  Proof.
    intros Hf. induction Ys as [|Y Ys IH]; intros d; cbn [pcmb_loop]; [split; [discriminate|reflexivity]|].
    destruct (get_pc_terminates Y f d Hf) as (H1 & ->). destruct (get_pc ci heur lt iter target U (S (length U)) Y d) as [(P & d1)|e]; cbn [bind]; [|split; [intros Hq; apply H1; congruence|reflexivity]].
    pose proof (spouses_no Y PC d1 (iter P)) as H2. destruct (spouses_of ci target Y (iter P) PC d1) as [v|e]; cbn [bind]; [apply IH|split; [intros Hq; apply H2; congruence|reflexivity]].
  Qed.
  Lemma pcmb_terminates : exists r, evaluates (pcmb_discover_mb ci heur lt iter target U) r.
  Proof.
    exists (pcmb_discover_mb ci heur lt iter target U (S (length U))). split.
    - unfold pcmb_discover_mb. apply bind_no_oof; [apply (get_pc_terminates target (S (length U))); lia|]. intros (PC & d) _.
      apply bind_no_oof; [apply (pcmb_loop_terminates (S (length U))); lia|]. discriminate.
    - exists (S (length U)). intros n Hn. unfold pcmb_discover_mb. destruct (get_pc_terminates target n ([], []) Hn) as (_ & ->).
      destruct (get_pc ci heur lt iter target U (S (length U)) target ([], [])) as [(PC & d)|e]; [|reflexivity]. cbn [bind].
      destruct (pcmb_loop_terminates n PC Hn (iter PC) d) as (_ & ->). reflexivity.
  Qed.
End PCMB.
