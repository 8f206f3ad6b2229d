(** Running IPC-MB against an arbitrary CI test. *)
From Verif Require Import Base MB_Model MB_Spec MB_Cache_Proofs.

Section Run.
  Context {St : Type}.
  Variable ci : St -> nat -> nat -> list nat -> res bool * St.
  Variable iter : St -> list nat -> list nat.
  Variable V : list nat.
  Variable Inv : St -> Prop.
  (** what may be concluded from the three kinds of answers *)
  Variables PT PF : nat -> nat -> list nat -> Prop.
  Variable INS : Prop.
  Hypothesis Hiter : iterates iter.
  Hypothesis Hci : forall st x y Z, Inv st -> sensible_question V x y Z ->
    exists r st', ci st x y Z = (r, st') /\ Inv st' /\
      ((r = Ok true /\ PT x y Z) \/ (r = Ok false /\ PF x y Z) \/ (r = Err InsufficientSamples /\ INS)).

  Definition cache_inv (c : setcache) := forall x y Z, x <> y -> sc_get [x; y] c = Ok Z -> sensible_question V x y Z.
  Definition known (c : setcache) x y := exists Z, sc_get [x; y] c = Ok Z /\ (PT x y Z \/ PT y x Z).
  Definition has (c : setcache) x y := exists Z, sc_get [x; y] c = Ok Z.
  Definition ext (c c' : setcache) := (forall x y, has c x y -> has c' x y) /\ (forall x y, known c x y -> known c' x y).
  Lemma ext_refl c : ext c c. Proof. split; auto. Qed.
  Lemma ext_trans a b c : ext a b -> ext b c -> ext a c. Proof. intros (H1 & H2) (H3 & H4). split; auto. Qed.

  Lemma same_pair x y a b : same_set [x; y] [a; b] -> x <> y -> (x = a /\ y = b) \/ (x = b /\ y = a).
  Proof.
    intros H Hne. pose proof (proj1 (H x) (or_introl eq_refl)) as H1. pose proof (proj1 (H y) (or_intror (or_introl eq_refl))) as H2.
    simpl in *. destruct H1 as [<-|[<-|[]]], H2 as [<-|[<-|[]]]; tauto.
  Qed.
  Lemma sq_sym x y Z : sensible_question V x y Z -> sensible_question V y x Z.
  Proof. unfold sensible_question. intuition. Qed.
  Lemma pair_swap (x y : nat) : same_set [x; y] [y; x]. Proof. intros z; simpl; tauto. Qed.
  Lemma has_sym c x y : has c x y -> has c y x.
  Proof. intros (Z & E). exists Z. rewrite (sc_get_cong _ [x; y]) by apply pair_swap. assumption. Qed.
  Lemma known_sym c x y : known c x y -> known c y x.
  Proof. intros (Z & E & H). exists Z. rewrite (sc_get_cong _ [x; y]) by apply pair_swap. split; [assumption|tauto]. Qed.

  Lemma add_inv c T X Z : cache_inv c -> sensible_question V T X Z -> cache_inv (sc_add Z [T; X] c).
  Proof.
    intros Hc HZ x y Z' Hne E. destruct (same_set_dec [x; y] [T; X]) as [Hs|Hs].
    - rewrite sc_get_add_same in E by assumption. injection E as <-. destruct (same_pair _ _ _ _ Hs Hne) as [(-> & ->)|(-> & ->)]; [assumption|apply sq_sym; assumption].
    - rewrite sc_get_add_other in E by assumption. eauto.
  Qed.
  Lemma add_ext c T X Z : PT X T Z \/ ~ has c T X -> T <> X -> ext c (sc_add Z [T; X] c).
  Proof.
    intros H Hne. split; intros x y.
    - intros (Z' & E). destruct (same_set_dec [x; y] [T; X]) as [Hs|Hs]; [exists Z; apply sc_get_add_same; assumption|].
      exists Z'. rewrite sc_get_add_other; assumption.
    - intros (Z' & E & HP). destruct (same_set_dec [x; y] [T; X]) as [Hs|Hs]; [|exists Z'; rewrite sc_get_add_other; auto].
      destruct H as [H|H].
      + exists Z. rewrite sc_get_add_same by assumption. split; [reflexivity|].
        destruct (Nat.eq_dec x y) as [->|Hxy].
        * exfalso. apply Hne. pose proof (proj2 (Hs T) (or_introl eq_refl)). pose proof (proj2 (Hs X) (or_intror (or_introl eq_refl))).
          simpl in *. intuition congruence.
        * destruct (same_pair _ _ _ _ Hs Hxy) as [(-> & ->)|(-> & ->)]; auto.
      + exfalso. apply H. exists Z'. rewrite <- (sc_get_cong [x; y]); assumption.
  Qed.

  Lemma try_cutsets_ok T X : forall Zs non c st, T <> X ->
    Inv st -> cache_inv c -> (forall Z, In Z Zs -> sensible_question V X T Z) ->
    exists non' c' st', try_cutsets ci T X Zs non c st = Ok (non', c', st') /\ Inv st' /\ cache_inv c' /\ ext c c' /\
      (non' = true -> non = true \/ INS \/ known c' T X) /\
      (non' = false -> forall Z, In Z Zs -> PF X T Z).
  Proof.
    induction Zs as [|Z Zs IH]; intros non c st Hne Hi Hc HZ.
    - exists non, c, st. simpl. split; [reflexivity|]. split; [assumption|]. split; [assumption|]. split; [apply ext_refl|].
      split; [auto|]. intros _ Z [].
    - simpl. destruct (Hci st X T Z Hi) as (r & st1 & E & Hi1 & Hr); [apply HZ; left; reflexivity|]. rewrite E.
      destruct Hr as [(-> & HP)|[(-> & HP)|(-> & HP)]].
      + exists true, (sc_add Z [T; X] c), st1. split; [reflexivity|]. split; [assumption|].
        split; [apply add_inv; [assumption|]; apply sq_sym, HZ; left; reflexivity|]. split; [apply add_ext; auto|].
        split; [|discriminate]. intros _. right; right. exists Z. rewrite sc_get_add_same by (intros z; reflexivity). auto.
      + destruct (IH non c st1) as (non' & c' & st' & E' & H1 & H2 & H3 & H4 & H5); [assumption..|intros; apply HZ; right; assumption|].
        exists non', c', st'. repeat (split; [assumption|]). intros Hn Z' [<-|Hin]; [assumption|auto].
      + destruct (IH true c st1) as (non' & c' & st' & E' & H1 & H2 & H3 & H4 & H5); [assumption..|intros; apply HZ; right; assumption|].
        exists non', c', st'. split; [assumption|]. split; [assumption|]. split; [assumption|]. split; [assumption|].
        assert (Hm : non' = true).
        { clear - E'. revert E'. assert (G : forall Zs c st, try_cutsets ci T X Zs true c st = Ok (non', c', st') -> non' = true).
          { induction Zs0 as [|Z0 Zs0 IH0]; simpl; intros c0 st0 E0; [congruence|]. destruct (ci st0 X T Z0) as ([[|]|e] & s); [congruence|eauto|].
            destruct e; try discriminate. eauto. }
          apply G. }
        split; [intros _; auto|congruence].
  Qed.

  (** all cut sets of size [k] for X were answered "dependent" *)
  Definition refused T X (A : list nat) k :=
    forall W, NoDup W -> incl W A -> ~ In X W -> length W = k -> exists Z, Permutation Z W /\ PF X T Z.

  Lemma pc_round_ok T Adj cut : NoDup Adj -> ~ In T Adj -> incl Adj V -> In T V ->
    forall Xs NonPC c st, incl Xs Adj -> Inv st -> cache_inv c ->
    exists NonPC' c' st', pc_round ci iter T Adj Xs cut NonPC c st = Ok (NonPC', c', st') /\ Inv st' /\ cache_inv c' /\ ext c c' /\
      incl NonPC NonPC' /\
      (forall X, In X NonPC' -> In X NonPC \/ (In X Xs /\ (INS \/ known c' T X))) /\
      (forall X, In X Xs -> has c' T X) /\
      (forall X, In X Xs -> ~ In X NonPC' -> refused T X Adj cut).
  Proof.
    intros HN HT HV HTV. induction Xs as [|X Xs IH]; intros NonPC c st HX Hi Hc.
    - exists NonPC, c, st. simpl. split; [reflexivity|]. repeat (split; [assumption|]). split; [apply ext_refl|].
      split; [intros x; auto|]. split; [auto|]. split; intros X [].
    - cbn [pc_round]. assert (HXA : In X Adj) by (apply HX; left; reflexivity).
      assert (Hne : T <> X) by (intros ->; contradiction).
      assert (HNi : NoDup (iter st (set_remove1 Adj X))) by (apply (Permutation_NoDup (Hiter st _)), remove1_nodup; assumption).
      destruct (try_cutsets_ok T X (combinations cut (iter st (set_remove1 Adj X))) false c st Hne Hi Hc)
        as (non & c1 & st1 & E1 & Hi1 & Hc1 & He1 & Hn1 & Hf1).
      { intros Z HZ. apply combinations_sound in HZ as (_ & HZi & HZn). specialize (HZn HNi).
        assert (HZA : forall z, In z Z -> In z Adj /\ z <> X).
        { intros z Hz. apply HZi in Hz. apply (iter_in iter Hiter) in Hz. apply remove1_in in Hz. assumption. }
        split; [auto|]. split; [intros H; apply HZA in H; tauto|]. split; [intros H; apply HZA in H; tauto|]. split; [assumption|].
        split; [auto|]. split; [assumption|]. intros z Hz. apply HV, HZA. assumption. }
      rewrite E1. cbn [bind].
      set (c2 := if sc_contains [T; X] c1 then c1 else sc_add [] [T; X] c1).
      assert (Hc2 : cache_inv c2 /\ ext c1 c2 /\ has c2 T X).
      { unfold c2. destruct (sc_contains [T; X] c1) eqn:Ec.
        - split; [assumption|]. split; [apply ext_refl|]. apply sc_contains_get in Ec. exact Ec.
        - assert (Hnh : ~ has c1 T X) by (intros H; apply sc_contains_get in H; congruence).
          split; [|split; [apply add_ext; auto|exists []; apply sc_get_add_same; intros z; reflexivity]].
          apply add_inv; [assumption|]. unfold sensible_question. simpl.
          repeat (split; [tauto || assumption || constructor || auto|]). intros z []. }
      destruct Hc2 as (Hc2 & He2 & Hh2).
      destruct (IH (if non then set_add X NonPC else NonPC) c2 st1) as (NonPC' & c3 & st3 & E3 & Hi3 & Hc3 & He3 & HI3 & HS3 & HH3 & HR3).
      { intros x Hx. apply HX. right; assumption. } { assumption. } { assumption. }
      exists NonPC', c3, st3. split; [exact E3|]. split; [assumption|]. split; [assumption|].
      split; [eapply ext_trans; [exact He1|]; eapply ext_trans; eauto|].
      assert (Hsub : incl NonPC (if non then set_add X NonPC else NonPC)).
      { destruct non; [|apply incl_refl]. intros x Hx. apply add_in. auto. }
      split; [eapply incl_tran; eauto|]. split.
      { intros Y HY. destruct (HS3 Y HY) as [H|(H & H')].
        - destruct non; [|auto]. apply add_in in H as [->|H]; [|auto]. right. split; [left; reflexivity|].
          destruct (Hn1 eq_refl) as [?|[?|Hk]]; [discriminate|auto|]. right. apply He3, He2, Hk.
        - right. split; [right; assumption|assumption]. }
      split.
      { intros Y [<-|HY]; [|auto]. apply He3. assumption. }
      intros Y [<-|HY] Hnin; [|auto].
      destruct non.
      { exfalso. apply Hnin, HI3, add_in. auto. }
      intros W HW HWi HWx HWl.
      destruct (combinations_complete (iter st (set_remove1 Adj X)) HNi W HW) as (Z & HZ & HP).
      { intros w Hw. apply (iter_in iter Hiter), remove1_in. split; [auto|]. intros ->. contradiction. }
      exists Z. split; [assumption|]. apply (Hf1 eq_refl). rewrite HWl in HZ. assumption.
  Qed.

  Lemma recognize_loop_ok T : In T V -> forall fuel Adj cut c st,
    NoDup Adj -> ~ In T Adj -> incl Adj V -> Inv st -> cache_inv c -> length Adj - cut < fuel ->
    exists Adj' c' st', (forall f', fuel <= f' -> recognize_loop ci iter f' T Adj cut c st = Ok (Adj', c', st')) /\
      Inv st' /\ cache_inv c' /\ ext c c' /\ NoDup Adj' /\ incl Adj' Adj /\
      (forall X, In X Adj -> has c' T X) /\
      (forall X, In X Adj -> ~ In X Adj' -> INS \/ known c' T X) /\
      (forall X k, In X Adj' -> cut <= k -> k < length Adj' \/ k = cut -> refused T X Adj' k).
  Proof.
    intros HTV. induction fuel as [|fuel IH]; intros Adj cut c st HN HT HV Hi Hc Hf; [lia|].
    destruct (pc_round_ok T Adj cut HN HT HV HTV (iter st Adj) [] c st) as (NonPC & c1 & st1 & E1 & Hi1 & Hc1 & He1 & _ & HS1 & HH1 & HR1).
    { intros x Hx. apply (iter_in iter Hiter) in Hx. assumption. } { assumption. } { assumption. }
    set (Adj1 := set_diff Adj NonPC).
    assert (HN1 : NoDup Adj1) by (apply diff_nodup; assumption).
    assert (HI1 : incl Adj1 Adj) by (intros x Hx; apply diff_in in Hx; tauto).
    assert (Hrem : forall X, In X Adj -> ~ In X Adj1 -> INS \/ known c1 T X).
    { intros X HX Hn. destruct (in_dec Nat.eq_dec X NonPC) as [Hin|Hin]; [|exfalso; apply Hn, diff_in; auto].
      destruct (HS1 X Hin) as [[]|(_ & H)]. assumption. }
    assert (Hhas : forall X, In X Adj -> has c1 T X) by (intros X HX; apply HH1, (iter_in iter Hiter); assumption).
    assert (Href : forall X, In X Adj1 -> refused T X Adj cut).
    { intros X HX. apply diff_in in HX as (HX & Hn). apply HR1; [apply (iter_in iter Hiter); assumption|assumption]. }
    destruct (length Adj1 <=? S cut) eqn:El.
    - exists Adj1, c1, st1. split.
      { intros f' Hf'. destruct f' as [|f']; [lia|]. cbn [recognize_loop]. rewrite E1. cbn [bind]. fold Adj1. rewrite El. reflexivity. }
      split; [assumption|]. split; [assumption|]. split; [assumption|]. split; [assumption|]. split; [assumption|].
      split; [assumption|]. split; [assumption|].
      intros X k HX Hk [Hlt|Heq]; apply Nat.leb_le in El.
      + assert (k = cut) by lia. subst k. intros W HW HWi. apply Href; [assumption|assumption|]. eapply incl_tran; eauto.
      + subst k. intros W HW HWi. apply Href; [assumption|assumption|]. eapply incl_tran; eauto.
    - apply Nat.leb_gt in El.
      assert (Hlen : length Adj1 <= length Adj) by (apply NoDup_incl_length; assumption).
      destruct (IH Adj1 (S cut) c1 st1 HN1) as (Adj2 & c2 & st2 & E2 & Hi2 & Hc2 & He2 & HN2 & HI2 & HH2 & HK2 & HR2).
      { intros H. apply HT, HI1, H. } { eapply incl_tran; eauto. } { assumption. } { assumption. } { lia. }
      exists Adj2, c2, st2. split.
      { intros f' Hf'. destruct f' as [|f']; [lia|]. cbn [recognize_loop]. rewrite E1. cbn [bind]. fold Adj1.
        replace (length Adj1 <=? S cut) with false by (symmetry; apply Nat.leb_gt; lia). apply E2. lia. }
      split; [assumption|]. split; [assumption|]. split; [eapply ext_trans; eauto|]. split; [assumption|].
      split; [eapply incl_tran; eauto|]. split; [intros X HX; apply He2; auto|]. split.
      { intros X HX Hn. destruct (in_dec Nat.eq_dec X Adj1) as [Hin|Hin]; [auto|].
        destruct (Hrem X HX Hin) as [?|Hk]; [auto|]. right. apply He2. assumption. }
      intros X k HX Hk Hlt. destruct (Nat.eq_dec k cut) as [->|Hne].
      + intros W HW HWi. apply Href; [apply HI2; assumption|assumption|]. eapply incl_tran; [exact HWi|]. eapply incl_tran; eauto.
      + apply HR2; [assumption|lia|]. destruct Hlt as [?|?]; [auto|lia].
  Qed.

  Lemma recognize_pc_ok T Adj c st : In T V -> NoDup Adj -> ~ In T Adj -> incl Adj V -> Inv st -> cache_inv c ->
    exists Adj' c' st', (forall f', S (length Adj) <= f' -> recognize_pc ci iter f' T Adj c st = Ok (Adj', c', st')) /\
      Inv st' /\ cache_inv c' /\ ext c c' /\ NoDup Adj' /\ incl Adj' Adj /\
      (forall X, In X Adj -> has c' T X) /\
      (forall X, In X Adj -> ~ In X Adj' -> INS \/ known c' T X) /\
      (forall X k, In X Adj' -> k < length Adj' -> refused T X Adj' k).
  Proof.
    intros H1 H2 H3 H4 H5 H6. destruct (recognize_loop_ok T H1 (S (length Adj)) Adj 0 c st H2 H3 H4 H5 H6) as (A & c' & st' & E & P1 & P2 & P3 & P4 & P5 & P6 & P7 & P8); [lia|].
    exists A, c', st'. unfold recognize_pc. repeat (split; [assumption|]). intros X k HX Hk. apply P8; [assumption|lia|auto].
  Qed.

  (** what RecognizePC(T, U - {T}) may return *)
  Definition pc_outcome U T A :=
    NoDup A /\ incl A (set_remove1 U T) /\ (forall X k, In X A -> k < length A -> refused T X A k).

  Lemma symmetry_loop_ok T U : In T V -> NoDup U -> incl U V ->
    forall Xs PC sp c st fuel, incl Xs (set_remove1 U T) -> NoDup Xs -> (forall X, In X Xs -> ~ In X PC) -> S (length U) <= fuel -> Inv st -> cache_inv c ->
    exists PC' sp' c' st',
      (forall f', fuel <= f' -> symmetry_loop ci iter f' T U Xs PC sp c st = Ok (PC', sp', c', st')) /\
      Inv st' /\ cache_inv c' /\ ext c c' /\
      (NoDup PC -> NoDup PC') /\
      (forall X, In X PC' -> In X PC \/ (In X Xs /\ exists A, pc_outcome U X A /\ In T A)) /\
      (forall X, In X PC -> In X PC') /\
      (In T U -> forall X, In X Xs -> In X PC' \/ INS \/ known c' X T) /\
      (forall X, In X PC -> sc_get [T; X] sp' = sc_get [T; X] sp) /\
      (forall X, In X PC' -> In X PC \/ exists A, pc_outcome U X A /\ In T A /\ sc_get [T; X] sp' = Ok (set_remove1 A T) /\
           (forall Y, In Y U -> Y <> X -> ~ In Y A -> INS \/ known c' X Y)).
  Proof.
    intros HTV HNU HUV. induction Xs as [|X Xs IH]; intros PC sp c st fuel HX HNX Hdis Hf Hi Hc.
    { exists PC, sp, c, st. simpl. split; [reflexivity|]. split; [assumption|]. split; [assumption|]. split; [apply ext_refl|].
      split; [auto|]. split; [auto|]. split; [auto|]. split; [intros _ X []|]. split; auto. }
    inversion HNX as [|? ? HXn HNX']; subst.
    assert (HXU : In X U /\ X <> T) by (apply remove1_in, HX; left; reflexivity).
    assert (Hlen : length (set_remove1 U X) <= length U).
    { apply NoDup_incl_length; [apply remove1_nodup; assumption|]. intros x Hx. apply remove1_in in Hx; tauto. }
    destruct (recognize_pc_ok X (set_remove1 U X) c st) as (A & c1 & st1 & E1 & Hi1 & Hc1 & He1 & HNA & HIA & HH1 & HK1 & HR1).
    { apply HUV; tauto. } { apply remove1_nodup; assumption. } { intros H; apply remove1_in in H; tauto. }
    { intros x Hx. apply remove1_in in Hx. apply HUV. tauto. } { assumption. } { assumption. }
    assert (HO : pc_outcome U X A) by (split; [assumption|]; split; assumption).
    cbn [symmetry_loop]. destruct (mem T A) eqn:Em.
    - destruct (IH (set_add X PC) (sc_add (set_remove1 A T) [T; X] sp) c1 st1 fuel) as (PC' & sp' & c' & st' & E' & Hi' & Hc' & He' & HN' & HS' & HP' & HX' & HG' & HA').
      { intros x Hx; apply HX; right; assumption. } { assumption. }
      { intros x Hx Hin. apply add_in in Hin as [->|Hin]; [contradiction|]. eapply Hdis; [right; eassumption|assumption]. }
      { assumption. } { assumption. } { assumption. }
      exists PC', sp', c', st'. split.
      { intros f' Hf'. rewrite E1 by lia. cbn [bind]. rewrite Em. apply E'. assumption. }
      apply mem_In in Em.
      split; [assumption|]. split; [assumption|]. split; [eapply ext_trans; eauto|].
      split; [intros HNP; apply HN', add_nodup; assumption|].
      split. { intros Y HY. destruct (HS' Y HY) as [H|(H & H')]; [|right; split; [right; assumption|assumption]].
               apply add_in in H as [->|H]; [right; split; [left; reflexivity|eauto]|auto]. }
      split; [intros Y HY; apply HP', add_in; auto|].
      split. { intros HTU Y [<-|HY]; [left; apply HP', add_in; auto|auto]. }
      assert (Hget : sc_get [T; X] sp' = Ok (set_remove1 A T)).
      { rewrite HG' by (apply add_in; auto). apply sc_get_add_same. intros z; reflexivity. }
      split.
      { intros Y HY. rewrite HG' by (apply add_in; auto). apply sc_get_add_other. intros Hs.
        assert (HXY : X = Y). { pose proof (proj2 (Hs X) (or_intror (or_introl eq_refl))) as [Hq|[Hq|[]]]; [|congruence]. exfalso. subst T. tauto. }
        subst Y. eapply Hdis; [left; reflexivity|assumption]. }
      intros Y HY. destruct (HA' Y HY) as [H|(A' & H1 & H2 & H3 & H4)]; [|right; eauto 6].
      apply add_in in H as [->|H]; [|auto]. right. exists A. split; [assumption|]. split; [assumption|]. split; [assumption|].
      intros Z HZ HZX HZA. destruct (HK1 Z) as [?|Hk]; [apply remove1_in; auto|assumption|auto|]. right. apply He'. assumption.
    - apply mem_false in Em as Em'.
      destruct (IH PC sp c1 st1 fuel) as (PC' & sp' & c' & st' & E' & Hi' & Hc' & He' & HN' & HS' & HP' & HX' & HG' & HA').
      { intros x Hx; apply HX; right; assumption. } { assumption. }
      { intros x Hx. apply Hdis. right; assumption. } { assumption. } { assumption. } { assumption. }
      exists PC', sp', c', st'. split.
      { intros f' Hf'. rewrite E1 by lia. cbn [bind]. rewrite Em. apply E'. assumption. }
      split; [assumption|]. split; [assumption|]. split; [eapply ext_trans; eauto|]. split; [assumption|].
      split. { intros Y HY. destruct (HS' Y HY) as [H|(H & H')]; [auto|right; split; [right; assumption|assumption]]. }
      split; [assumption|].
      split. { intros HTU Y [<-|HY]; [|auto]. right.
        destruct (HK1 T) as [?|Hk]; [apply remove1_in; split; [assumption|intros ->; tauto]|assumption|auto|]. right. apply He'. assumption. }
      split; assumption.
  Qed.

  (** the conditioning set [Z] of the spouse test, for the cached separating set [sep] of (T,Y) *)
  Definition spouse_test (Q : nat -> nat -> list nat -> Prop) (c : setcache) T X Y :=
    exists sep, sc_get [T; Y] c = Ok sep /\ Q T Y (set_union1 sep X).

  Lemma spouse_inner_ok T X c : T <> X -> In X V -> cache_inv c ->
    forall Ys MB st, Inv st -> (forall Y, In Y Ys -> Y <> T /\ Y <> X /\ has c T Y) ->
    exists MB' st', spouse_inner ci T X Ys MB c st = Ok (MB', st') /\ Inv st' /\
      (NoDup MB -> NoDup MB') /\ incl MB MB' /\
      (forall Y, In Y MB' -> In Y MB \/ (In Y Ys /\ ~ In Y MB /\ spouse_test PF c T X Y)) /\
      (forall Y, In Y Ys -> In Y MB' \/ INS \/ spouse_test PT c T X Y).
  Proof.
    intros Hne HXV Hc. induction Ys as [|Y Ys IH]; intros MB st Hi HY.
    { exists MB, st. simpl. split; [reflexivity|]. split; [assumption|]. split; [auto|]. split; [apply incl_refl|].
      split; [auto|intros Y []]. }
    destruct (HY Y (or_introl eq_refl)) as (HYT & HYX & (sep & Es)).
    assert (HY' : forall Y0, In Y0 Ys -> Y0 <> T /\ Y0 <> X /\ has c T Y0) by (intros; apply HY; right; assumption).
    cbn [spouse_inner]. destruct (mem Y MB) eqn:Em.
    { apply mem_In in Em. destruct (IH MB st Hi HY') as (MB' & st' & E & Hi' & HN & HI & HS & HP).
      exists MB', st'. split; [assumption|]. split; [assumption|]. split; [assumption|]. split; [assumption|]. split.
      - intros W HW. destruct (HS W HW) as [?|(? & ? & ?)]; [auto|]. right. split; [right; assumption|auto].
      - intros W [<-|HW]; [left; apply HI; assumption|auto]. }
    apply mem_false in Em. rewrite Es. cbn [bind].
    assert (HTY : T <> Y) by congruence. destruct (Hc T Y sep HTY Es) as (_ & HTs & HYs & HNs & HTV & HYV & HsV).
    assert (Hsq : sensible_question V T Y (set_union1 sep X)).
    { unfold set_union1. split; [assumption|]. split; [rewrite add_in; intuition congruence|]. split; [rewrite add_in; intuition congruence|].
      split; [apply add_nodup; assumption|]. split; [assumption|]. split; [assumption|].
      intros z Hz. apply add_in in Hz as [->|Hz]; [assumption|]. apply HsV. assumption. }
    destruct (Hci st T Y _ Hi Hsq) as (r & st1 & E1 & Hi1 & Hr). rewrite E1.
    destruct Hr as [(-> & HP1)|[(-> & HP1)|(-> & HP1)]].
    - destruct (IH MB st1 Hi1 HY') as (MB' & st' & E & Hi' & HN & HI & HS & HP).
      exists MB', st'. split; [assumption|]. split; [assumption|]. split; [assumption|]. split; [assumption|]. split.
      + intros W HW. destruct (HS W HW) as [?|(? & ? & ?)]; [auto|]. right. split; [right; assumption|auto].
      + intros W [<-|HW]; [|auto]. right; right. exists sep. auto.
    - destruct (IH (set_add Y MB) st1 Hi1 HY') as (MB' & st' & E & Hi' & HN & HI & HS & HP).
      exists MB', st'. split; [assumption|]. split; [assumption|]. split; [intros; apply HN, add_nodup; assumption|].
      split; [intros w Hw; apply HI, add_in; auto|]. split.
      + intros W HW. destruct (HS W HW) as [H|(H1 & H2 & H3)].
        * apply add_in in H as [->|H]; [|auto]. right. split; [left; reflexivity|]. split; [assumption|]. exists sep. auto.
        * right. split; [right; assumption|]. split; [|assumption]. intros H. apply H2, add_in. auto.
      + intros W [<-|HW]; [|auto]. left. apply HI, add_in. auto.
    - destruct (IH MB st1 Hi1 HY') as (MB' & st' & E & Hi' & HN & HI & HS & HP).
      exists MB', st'. split; [assumption|]. split; [assumption|]. split; [assumption|]. split; [assumption|]. split.
      + intros W HW. destruct (HS W HW) as [?|(? & ? & ?)]; [auto|]. right. split; [right; assumption|auto].
      + intros W [<-|HW]; auto.
  Qed.

  Lemma spouse_loop_ok T sp c : cache_inv c ->
    forall Xs MB st, Inv st ->
    (forall X, In X Xs -> X <> T /\ In X V /\ exists Ys, sc_get [T; X] sp = Ok Ys /\ forall Y, In Y Ys -> Y <> T /\ Y <> X /\ has c T Y) ->
    exists MB' st', spouse_loop ci iter T Xs MB sp c st = Ok (MB', st') /\ Inv st' /\
      (NoDup MB -> NoDup MB') /\ incl MB MB' /\
      (forall Y, In Y MB' -> In Y MB \/
         (~ In Y MB /\ exists X Ys, In X Xs /\ sc_get [T; X] sp = Ok Ys /\ In Y Ys /\ spouse_test PF c T X Y)) /\
      (forall X Ys Y, In X Xs -> sc_get [T; X] sp = Ok Ys -> In Y Ys -> In Y MB' \/ INS \/ spouse_test PT c T X Y).
  Proof.
    intros Hc. induction Xs as [|X Xs IH]; intros MB st Hi HX.
    { exists MB, st. simpl. split; [reflexivity|]. split; [assumption|]. split; [auto|]. split; [apply incl_refl|].
      split; [auto|intros X Ys Y []]. }
    destruct (HX X (or_introl eq_refl)) as (HXT & HXV & Ys & Es & HYs).
    cbn [spouse_loop]. rewrite Es. cbn [bind].
    destruct (spouse_inner_ok T X c ltac:(congruence) HXV Hc (iter st Ys) MB st Hi) as (MB1 & st1 & E1 & Hi1 & HN1 & HI1 & HS1 & HP1).
    { intros Y HY. apply HYs, (iter_in iter Hiter) with st. assumption. }
    rewrite E1. cbn [bind].
    destruct (IH MB1 st1 Hi1) as (MB' & st' & E & Hi' & HN & HI & HS & HP); [intros; apply HX; right; assumption|].
    exists MB', st'. split; [assumption|]. split; [assumption|]. split; [auto|]. split; [eapply incl_tran; eauto|]. split.
    - intros Y HY. destruct (HS Y HY) as [H|(Hn & X' & Ys' & H1 & H2 & H3 & H4)].
      + destruct (HS1 Y H) as [?|(H1 & H2 & H3)]; [auto|]. right. split; [assumption|].
        exists X, Ys. split; [left; reflexivity|]. split; [assumption|]. split; [apply (iter_in iter Hiter) in H1; assumption|assumption].
      + right. split; [intros H; apply Hn, HI1, H|]. exists X', Ys'. split; [right; assumption|auto].
    - intros X' Ys' Y [<-|HX'] Es' HY; [|eauto].
      rewrite Es in Es'. injection Es' as <-. destruct (HP1 Y) as [H|H]; [apply (iter_in iter Hiter); assumption|left; apply HI; assumption|auto].
  Qed.

  (** everything the algorithm's answer rests on *)
  Definition pc_evidence U T PC c :=
    NoDup PC /\ incl PC (set_remove1 U T) /\
    (exists A, pc_outcome U T A /\ incl PC A /\ (forall X, In X U -> X <> T -> ~ In X A -> INS \/ known c T X)) /\
    (In T U -> forall X, In X U -> X <> T -> ~ In X PC -> INS \/ known c T X).
  Definition cand_spouses U T sp c PC :=
    forall X, In X PC -> exists A, pc_outcome U X A /\ In T A /\ sc_get [T; X] sp = Ok (set_remove1 A T) /\
           (forall Y, In Y U -> Y <> X -> ~ In Y A -> INS \/ known c X Y).

  Lemma ipcmb_ok U T st : incl U V -> In T V -> NoDup U -> Inv st ->
    exists PC sp c st1, Inv st1 /\ cache_inv c /\ pc_evidence U T PC c /\ cand_spouses U T sp c PC /\
      (forall f, S (length U) <= f -> ipcmb ci iter true U T st f = Ok (PC, st1)) /\
      exists MB st2, Inv st2 /\ (forall f, S (length U) <= f -> ipcmb ci iter false U T st f = Ok (MB, st2)) /\
        NoDup MB /\ incl PC MB /\ incl MB (set_remove1 U T) /\
        (forall Y, In Y MB -> In Y PC \/ (~ In Y PC /\ exists X Ys, In X PC /\ sc_get [T; X] sp = Ok Ys /\ In Y Ys /\ spouse_test PF c T X Y)) /\
        (forall X Ys Y, In X PC -> sc_get [T; X] sp = Ok Ys -> In Y Ys -> In Y MB \/ INS \/ spouse_test PT c T X Y).
  Proof.
    intros HUV HTV HNU Hi.
    assert (Hlen : length (set_remove1 U T) <= length U).
    { apply NoDup_incl_length; [apply remove1_nodup; assumption|]. intros x Hx. apply remove1_in in Hx; tauto. }
    assert (HUT : forall x, In x (set_remove1 U T) -> In x U /\ x <> T) by (intros x Hx; apply remove1_in in Hx; assumption).
    destruct (recognize_pc_ok T (set_remove1 U T) [] st HTV) as (A & c1 & st1 & E1 & Hi1 & Hc1 & _ & HNA & HIA & HH1 & HK1 & HR1).
    { apply remove1_nodup; assumption. } { intros H; apply HUT in H; tauto. } { intros x Hx; apply HUV, HUT, Hx. }
    { assumption. } { intros x y Z _ E. discriminate. }
    destruct (symmetry_loop_ok T U HTV HNU HUV (iter st1 A) [] [] c1 st1 (S (length U)))
      as (PC & sp & c2 & st2 & E2 & Hi2 & Hc2 & He2 & HN2 & HS2 & _ & HX2 & _ & HA2).
    { intros x Hx. apply HIA, (iter_in iter Hiter) with st1. assumption. }
    { apply (Permutation_NoDup (Hiter st1 A)). assumption. } { intros X _ []. } { lia. } { assumption. } { assumption. }
    assert (HPA : incl PC A).
    { intros X HX. destruct (HS2 X HX) as [[]|(H & _)]. apply (iter_in iter Hiter) in H. assumption. }
    assert (HKA : forall X, In X U -> X <> T -> ~ In X A -> INS \/ known c2 T X).
    { intros X HX HXT Hn. destruct (HK1 X) as [?|Hk]; [apply remove1_in; auto|assumption|auto|]. right. apply He2. assumption. }
    assert (Hev : pc_evidence U T PC c2).
    { split; [apply HN2; constructor|]. split; [eapply incl_tran; eauto|]. split.
      - exists A. split; [split; [assumption|split; assumption]|]. split; assumption.
      - intros HTU X HX HXT Hn. destruct (in_dec Nat.eq_dec X A) as [Hin|Hin]; [|auto].
        destruct (HX2 HTU X) as [?|[?|?]]; [apply (iter_in iter Hiter); assumption|contradiction|auto|]. right. apply known_sym. assumption. }
    assert (Hcs : cand_spouses U T sp c2 PC).
    { intros X HX. destruct (HA2 X HX) as [[]|H]. exact H. }
    exists PC, sp, c2, st2. split; [assumption|]. split; [assumption|]. split; [assumption|]. split; [assumption|]. split.
    { intros f Hf. unfold ipcmb. rewrite E1 by lia. cbn [bind]. rewrite E2 by lia. reflexivity. }
    assert (HPU : incl PC (set_remove1 U T)) by (eapply incl_tran; eauto).
    assert (Hsp : forall X, In X PC -> X <> T /\ In X V /\ exists Ys, sc_get [T; X] sp = Ok Ys /\ forall Y, In Y Ys -> Y <> T /\ Y <> X /\ has c2 T Y).
    { intros X HX. pose proof (HUT _ (HPU _ HX)) as (HXU & HXT). split; [assumption|]. split; [apply HUV; assumption|].
      destruct (Hcs X HX) as (B & (HB1 & HB2 & _) & HTB & Es & _). exists (set_remove1 B T). split; [assumption|].
      intros Y HY. apply remove1_in in HY as (HY & HYT). apply HB2 in HY. apply remove1_in in HY as (HYU & HYX).
      split; [assumption|]. split; [assumption|]. apply He2, HH1, remove1_in. auto. }
    destruct (spouse_loop_ok T sp c2 Hc2 (iter st2 PC) PC st2 Hi2) as (MB & st3 & E3 & Hi3 & HN3 & HI3 & HS3 & HP3).
    { intros X HX. apply Hsp, (iter_in iter Hiter) with st2. assumption. }
    exists MB, st3. split; [assumption|]. split.
    { intros f Hf. unfold ipcmb. rewrite E1 by lia. cbn [bind]. rewrite E2 by lia. exact E3. }
    split; [apply HN3, HN2; constructor|]. split; [assumption|]. split.
    { intros Y HY. destruct (HS3 Y HY) as [H|(_ & X & Ys & HX & Es & HYs & _)]; [auto|].
      apply (iter_in iter Hiter) in HX. destruct (Hcs X HX) as (B & (HB1 & HB2 & _) & HTB & Es' & _). rewrite Es in Es'. injection Es' as ->.
      apply remove1_in in HYs as (HY1 & HY2). apply HB2 in HY1. apply remove1_in in HY1 as (HY1 & _). apply remove1_in. auto. }
    split.
    { intros Y HY. destruct (HS3 Y HY) as [H|(Hn & X & Ys & HX & H)]; [auto|]. right. split; [assumption|].
      exists X, Ys. split; [apply (iter_in iter Hiter) in HX; assumption|assumption]. }
    intros X Ys Y HX. apply HP3, (iter_in iter Hiter). assumption.
  Qed.
End Run.

(** C27 *)
Lemma ipcmb_total {St} (ci : St -> nat -> nat -> list nat -> res bool * St) iter V Inv pc_only U T st :
  answers_sensibly ci V Inv -> iterates iter -> NoDup U -> incl U V -> In T V -> Inv st ->
  exists MB st', (forall f, S (length U) <= f -> ipcmb_discover_mb ci iter pc_only U T st f = Ok (MB, st')) /\ Inv st' /\
    StronglySorted lt MB /\ (forall x, In x MB -> In x U /\ x <> T).
Proof.
  intros Hci Hit HN HU HT Hi.
  destruct (ipcmb_ok ci iter V Inv (fun _ _ _ => True) (fun _ _ _ => True) True Hit) with (U := U) (T := T) (st := st)
    as (PC & sp & c & st1 & Hi1 & _ & (HNP & HIP & _) & _ & E & MB & st2 & Hi2 & E2 & HNM & _ & HIM & _); try assumption.
  { intros s x y Z Hs Hq. destruct (Hci s x y Z Hs Hq) as (r & s' & E & HI & H). exists r, s'. split; [assumption|]. split; [assumption|].
    destruct H as [->|[->| ->]]; auto. }
  destruct pc_only.
  - exists (sort_nat PC), st1. split; [intros f Hf; unfold ipcmb_discover_mb; rewrite E by assumption; reflexivity|].
    split; [assumption|]. split; [apply sort_strict; assumption|]. intros x Hx. apply sort_in, HIP, remove1_in in Hx. assumption.
  - exists (sort_nat MB), st2. split; [intros f Hf; unfold ipcmb_discover_mb; rewrite E2 by assumption; reflexivity|].
    split; [assumption|]. split; [apply sort_strict; assumption|]. intros x Hx. apply sort_in, HIM, remove1_in in Hx. assumption.
Qed.
