(** Any interleaving of the tests of objects that share trees and tables of joint entropies. *)
From Coq Require Import Reals.
From Verif Require Import Base AD_Model AD_Query_Model AD_Spec AD_Proofs Prob_Spec MB_Model MB_Cache_Proofs GTest_Model GTest_Spec
  GTest_Tables_Proofs GTest_DoF_Proofs GTest_Cache_Proofs GTest_Impl_Proofs GTest_AD_Proofs GTest_Proofs GTest_Properties Shared_Model Shared_Spec.
Open Scope Z_scope.

(** ** [put] *)
Lemma put_aux {A} i (x : A) l : forall s, map (fun jy => if (fst jy =? i)%nat then x else snd jy) (combine (seq s (length l)) l) =
  map (fun jy => if (fst jy + s =? i)%nat then x else snd jy) (combine (seq 0 (length l)) l).
Proof.
  induction l as [|y l IH]; intros s; [reflexivity|]. cbn [length seq combine map fst snd]. rewrite Nat.add_0_l. f_equal.
  rewrite (IH (Datatypes.S s)). rewrite <- seq_shift. clear IH.
  assert (H : forall m : list nat, forall l : list A, combine (map Datatypes.S m) l = map (fun jy => (Datatypes.S (fst jy), snd jy)) (combine m l)).
  { induction m as [|a m IH]; intros [|b l']; cbn; [reflexivity..|]. rewrite IH. reflexivity. }
  rewrite H, map_map. apply map_ext. intros [a b]. cbn [fst snd]. replace (a + Datatypes.S s)%nat with (Datatypes.S a + s)%nat by lia. reflexivity.
Qed.
Lemma put_cons {A} i (x y : A) l : put i x (y :: l) = match i with O => x :: l | Datatypes.S i' => y :: put i' x l end.
Proof.
  unfold put. cbn [length seq combine map fst snd]. rewrite put_aux. destruct i as [|i]; cbn [Nat.eqb].
  - f_equal. transitivity (map snd (combine (seq 0 (length l)) l)).
    + apply map_ext. intros [a b]. cbn [fst snd]. replace (a + 1 =? 0)%nat with false by (symmetry; apply Nat.eqb_neq; lia). reflexivity.
    + generalize 0%nat. induction l as [|z l IH]; intros s; [reflexivity|]. cbn. rewrite IH. reflexivity.
  - f_equal. apply map_ext. intros [a b]. cbn [fst snd]. replace (a + 1 =? Datatypes.S i)%nat with (a =? i)%nat; [reflexivity|]. rewrite Nat.add_1_r. reflexivity.
Qed.
Lemma put_length {A} (x : A) l : forall i, length (put i x l) = length l.
Proof. induction l as [|y l IH]; intros i; [reflexivity|]. rewrite put_cons. destruct i; cbn [length]; [reflexivity|]. rewrite IH. reflexivity. Qed.
Lemma put_same {A} (x : A) l : forall i, (i < length l)%nat -> nth_error (put i x l) i = Some x.
Proof.
  induction l as [|y l IH]; intros i H; [cbn in H; lia|]. rewrite put_cons. destruct i as [|i]; [reflexivity|]. cbn [nth_error]. apply IH. cbn in H. lia.
Qed.
Lemma put_other {A} (x : A) l : forall i j, i <> j -> nth_error (put i x l) j = nth_error l j.
Proof.
  induction l as [|y l IH]; intros i j H; [reflexivity|]. rewrite put_cons. destruct i as [|i], j as [|j]; cbn [nth_error]; try reflexivity; [congruence|]. apply IH. congruence.
Qed.
Lemma nth_lt {A} (l : list A) i x : nth_error l i = Some x -> (i < length l)%nat.
Proof. intros H. apply nth_error_Some. congruence. Qed.
Lemma nth_snoc {A} (l : list A) x i y : nth_error (l ++ [x]) i = Some y -> nth_error l i = Some y \/ i = length l /\ y = x.
Proof.
  intros H. destruct (Nat.lt_ge_cases i (length l)) as [L|L]; [left; rewrite nth_error_app1 in H by exact L; exact H|].
  rewrite nth_error_app2 in H by exact L. right. destruct (i - length l)%nat as [|n] eqn:E; [|destruct n; discriminate H]. injection H as <-. split; [lia|reflexivity].
Qed.
Lemma nth_snoc_l {A} (l : list A) x i y : nth_error l i = Some y -> nth_error (l ++ [x]) i = Some y.
Proof. intros H. rewrite nth_error_app1 by (eapply nth_lt; exact H). exact H. Qed.
Lemma nth_snoc_r {A} (l : list A) x : nth_error (l ++ [x]) (length l) = Some x.
Proof. rewrite nth_error_app2, Nat.sub_diag by lia. reflexivity. Qed.

(** ** [run] and [tests_of] of a longer program *)
Lemma run_snoc acts a : forall w, run w (acts ++ [a]) = let '(os, w1) := run w acts in let '(w2, o) := step w1 a in (os ++ [o], w2).
Proof.
  induction acts as [|b acts IH]; intros w; cbn [app run].
  - destruct (step w a); reflexivity.
  - destruct (step w b) as [w1 o]. rewrite IH. destruct (run w1 acts) as [os w2]. destruct (step w2 a); reflexivity.
Qed.
Lemma tests_of_app i a b : tests_of i (a ++ b) = tests_of i a ++ tests_of i b.
Proof. induction a as [|x a IH]; [reflexivity|]. destruct x; cbn [app tests_of]; try exact IH. destruct (i0 =? i)%nat; cbn [app]; rewrite IH; reflexivity. Qed.

Lemma logged_snoc D p kind n ts rs X Y Z r : logged D p kind n ts rs -> expected_result D p kind (n + Z.of_nat (length ts) + 1) X Y Z r ->
  logged D p kind n (ts ++ [(X, Y, Z)]) (rs ++ [r]).
Proof.
  intros (Hl & H) Hr. split; [rewrite !app_length; cbn; lia|]. intros i X' Y' Z' r' H1 H2.
  apply nth_snoc in H1 as [H1|(-> & H1)].
  - apply nth_snoc in H2 as [H2|(-> & H2)]; [eapply H; eassumption|]. exfalso. apply nth_lt in H1. lia.
  - injection H1 as -> -> ->. rewrite <- Hl, nth_snoc_r in H2. injection H2 as ->. exact Hr.
Qed.
Lemma logged_nil D p kind n : logged D p kind n [] [].
Proof. split; [reflexivity|]. intros [|i]; discriminate. Qed.

(** the object's own dataset matters only for the unadjusted degrees of freedom *)
Lemma run_on_tree_eq Dt D p dyn kind st X Y Z : (kind = UnadjustedDoF -> D = Dt) ->
  run_on_tree Dt D p dyn kind st X Y Z = run_test Dt p (WithADTree dyn) kind st X Y Z.
Proof.
  intros H. unfold run_on_tree, run_test. destruct (of_option AttributeError (ad_tree st)) as [t|e]; [|reflexivity]. cbn [bind].
  destruct (ad_tables Dt dyn kind (dof_cache st) t X Y Z) as [[[[[[a b] c] d] e] f]|e]; [|reflexivity]. cbn [bind].
  replace (calculate_DoF D kind e X Y Z b c d) with (calculate_DoF Dt kind e X Y Z b c d); [reflexivity|].
  destruct kind; [rewrite H by reflexivity; reflexivity|reflexivity|reflexivity].
Qed.

(** ** The invariant *)
Definition obj_ok (c : ctx) (w : world) (acts : list action) (i : nat) (d : descr) (o : gobj) : Prop :=
  g_params o = d_params d /\ g_kind o = d_kind d /\ g_part o = d_part d /\ order_ok (d_params d) /\
  sample_size (g_state o) = Z.of_nat (length (rows (d_data d))) /\ dcache_ok (d_data d) (dof_cache (g_state o)) /\
  logged (d_data d) (d_params d) (d_kind d) 0 (tests_of i acts) (results (g_state o)) /\ ci_test_counter (g_state o) = Z.of_nat (length (tests_of i acts)) /\
  match d_part d with
  | NoPart => g_data o = d_data d /\ wf_for (d_data d) Plain
  | TreeAt k => (d_kind d = UnadjustedDoF -> g_data o = d_data d) /\ exists dyn, nth_error (c_trees c) k = Some (d_data d, dyn)
  | DictAt k => g_data o = d_data d /\ compatible WithDcMI (d_kind d) /\ (exists h, nth_error (c_dicts c) k = Some (d_data d, d_kind d, h)) /\
                forall dk, nth_error (dicts w) k = Some dk -> coherent (d_kind d) (fst dk) (dof_cache (g_state o))
  end.
Definition WI (c : ctx) (w : world) (acts : list action) : Prop :=
  length (c_trees c) = length (trees w) /\ length (c_dicts c) = length (dicts w) /\ length (c_objs c) = length (objs w) /\
  (forall k Dt dyn, nth_error (c_trees c) k = Some (Dt, dyn) -> wf_for Dt (WithADTree dyn) /\
     exists t, nth_error (trees w) k = Some {| tc_data := Dt; tc_dyn := dyn; tc_root := t |} /\ ok_root Dt dyn t) /\
  (forall k D kind h, nth_error (c_dicts c) k = Some (D, kind, h) -> wf_for D WithDcMI /\
     exists dk, nth_error (dicts w) k = Some dk /\ exact_entropies D (fst dk) /\ (h = true -> snd dk <> None)) /\
  (forall i d, nth_error (c_objs c) i = Some d -> exists o, nth_error (objs w) i = Some (Some o) /\ obj_ok c w acts i d o) /\
  (forall i j di dj k, nth_error (c_objs c) i = Some di -> nth_error (c_objs c) j = Some dj -> d_part di = DictAt k -> d_part dj = DictAt k ->
     d_kind di = CachedStructuralDoF -> i = j).

Lemma start_on_tree Dt dyn kind t : wf_for Dt (WithADTree dyn) -> ok_root Dt dyn t ->
  exists st t', start Dt (WithADTree dyn) kind (Some t) None nothing_saved = Ok st /\ ad_tree st = Some t' /\ ok_root Dt dyn t' /\
    sample_size st = Z.of_nat (length (rows Dt)) /\ dof_cache st = [] /\ results st = [] /\ ci_test_counter st = 0.
Proof.
  intros Hw Ht. unfold start. destruct (query_count_ok Dt (proj1 Hw) dyn t []) as (t' & Eq & Ht'); [exact Ht|split; [constructor|intros ? ? []]|].
  assert (Ec : (match kind with CachedStructuralDoF => read_file [] (f_dofs nothing_saved) | _ => Ok [] end) = Ok []) by (destruct kind; reflexivity).
  rewrite Ec. cbn [bind]. rewrite Eq. cbn [bind]. eexists. exists t'. split; [reflexivity|]. cbn. repeat split; try reflexivity; try apply Ht'.
  unfold count_matching. f_equal. clear. induction (rows Dt) as [|x l IH]; cbn [filter row_agrees forallb length]; [reflexivity|rewrite IH; reflexivity].
Qed.
Lemma start_dcMI D kind : compatible WithDcMI kind ->
  exists st, start D WithDcMI kind None None nothing_saved = Ok st /\ jht st = [] /\
    sample_size st = Z.of_nat (length (rows D)) /\ dof_cache st = [] /\ results st = [] /\ ci_test_counter st = 0 /\ jht_reads st = 0 /\ jht_misses st = 0.
Proof. intros H. destruct kind; [|exfalso; apply H; reflexivity|]; (eexists; split; [reflexivity|]; cbn; auto 10). Qed.

(** what stays true of the other objects *)
Lemma obj_ok_keep c c' w w' acts a i d o : obj_ok c w acts i d o -> (forall t, a <> Test i t) ->
  (forall k x, nth_error (c_trees c) k = Some x -> nth_error (c_trees c') k = Some x) ->
  (forall k D kind h, nth_error (c_dicts c) k = Some (D, kind, h) -> exists h', nth_error (c_dicts c') k = Some (D, kind, h')) ->
  (forall k dk, d_part d = DictAt k -> d_kind d = CachedStructuralDoF -> nth_error (dicts w') k = Some dk -> exists dk0, nth_error (dicts w) k = Some dk0 /\ fst dk0 = fst dk) ->
  obj_ok c' w' (acts ++ [a]) i d o.
Proof.
  intros (H1 & H2 & H3 & H4 & H5 & H6 & H7 & H8 & H9) Ha Ht Hd Hw.
  assert (E : tests_of i (acts ++ [a]) = tests_of i acts).
  { rewrite tests_of_app. destruct a as [| | | | |j t|]; cbn [tests_of]; try apply app_nil_r. destruct (Nat.eqb_spec j i) as [->|N]; [exfalso; apply (Ha t); reflexivity|apply app_nil_r]. }
  unfold obj_ok. rewrite E. refine (conj H1 (conj H2 (conj H3 (conj H4 (conj H5 (conj H6 (conj H7 (conj H8 _)))))))).
  destruct (d_part d) as [|k|k]; [exact H9| |].
  - destruct H9 as (A & dyn & B). split; [exact A|]. exists dyn. apply Ht. exact B.
  - destruct H9 as (A & B & (h & C) & F). split; [exact A|]. split; [exact B|]. split; [eapply Hd; exact C|].
    intros dk E1 Hk. destruct (Hw k dk eq_refl Hk E1) as (dk0 & E0 & Ef). rewrite <- Ef. exact (F dk0 E0 Hk).
Qed.

(** a new object joins *)
Lemma WI_new c w acts a trs' dks' cds' d o :
  WI c w acts -> (forall i t, a <> Test i t) ->
  length (c_trees c) = length trs' -> length cds' = length dks' ->
  (forall k Dt dyn, nth_error (c_trees c) k = Some (Dt, dyn) -> exists t, nth_error trs' k = Some {| tc_data := Dt; tc_dyn := dyn; tc_root := t |} /\ ok_root Dt dyn t) ->
  (forall k D kind h, nth_error (c_dicts c) k = Some (D, kind, h) -> nth_error cds' k = Some (D, kind, h)) ->
  (forall k D kind h, nth_error cds' k = Some (D, kind, h) -> wf_for D WithDcMI /\
     exists dk, nth_error dks' k = Some dk /\ exact_entropies D (fst dk) /\ (h = true -> snd dk <> None)) ->
  (forall k dk, (k < length (c_dicts c))%nat -> nth_error dks' k = Some dk -> nth_error (dicts w) k = Some dk) ->
  (forall j dj k, nth_error (c_objs c) j = Some dj -> d_part dj = DictAt k -> d_part d = DictAt k -> d_kind d <> CachedStructuralDoF /\ d_kind dj <> CachedStructuralDoF) ->
  (forall acts', tests_of (length (c_objs c)) acts' = [] ->
   obj_ok {| c_trees := c_trees c; c_dicts := cds'; c_objs := c_objs c ++ [d] |} {| trees := trs'; dicts := dks'; objs := objs w ++ [Some o] |} acts' (length (c_objs c)) d o) ->
  (forall j t, In (Test j t) acts -> (j < length (c_objs c))%nat) ->
  WI {| c_trees := c_trees c; c_dicts := cds'; c_objs := c_objs c ++ [d] |} {| trees := trs'; dicts := dks'; objs := objs w ++ [Some o] |} (acts ++ [a]).
Proof.
  intros (L1 & L2 & L3 & HT & HD & HO & HU) Ha Lt Ld Ht Hcd Hcd' Hdk Hshare Hobj Hin. unfold WI. cbn [c_trees c_dicts c_objs trees dicts objs].
  split; [exact Lt|]. split; [exact Ld|]. split; [rewrite !app_length, L3; reflexivity|]. split; [|split; [exact Hcd'|split]].
  - intros k Dt dyn E. split; [apply (HT k Dt dyn E)|]. apply Ht. exact E.
  - intros i di E. apply nth_snoc in E as [E|(-> & ->)].
    + destruct (HO i di E) as (oi & Eo & Hoi). exists oi. split; [apply nth_snoc_l; exact Eo|].
      eapply obj_ok_keep; [exact Hoi|intros t; apply Ha|cbn [c_trees]; auto| |].
      * cbn [c_dicts]. intros k D kind h Ek. exists h. apply Hcd. exact Ek.
      * cbn [dicts]. intros k dk Ep _ Ek. exists dk. split; [|reflexivity]. apply Hdk; [|exact Ek].
        destruct Hoi as (_ & _ & _ & _ & _ & _ & _ & _ & H). rewrite Ep in H. destruct H as (_ & _ & (h & H) & _). eapply nth_lt. exact H.
    + exists o. split; [rewrite L3; apply nth_snoc_r|]. apply Hobj. rewrite tests_of_app.
      assert (E1 : tests_of (length (c_objs c)) acts = []).
      { clear -Hin. induction acts as [|x acts IH]; [reflexivity|]. destruct x as [| | | | |j t|]; cbn [tests_of]; try (apply IH; intros; apply (Hin j t); right; assumption); try (apply IH; intros j0 t0 H0; apply (Hin j0 t0); right; exact H0).
        destruct (Nat.eqb_spec j (length (c_objs c))) as [->|N]; [exfalso; apply (Nat.lt_irrefl (length (c_objs c))); apply (Hin _ t); left; reflexivity|]. apply IH. intros j0 t0 H0. apply (Hin j0 t0). right. exact H0. }
      rewrite E1. destruct a as [| | | | |j t|]; try reflexivity. exfalso. eapply Ha. reflexivity.
  - intros i j di dj k Ei Ej Pi Pj Hk. apply nth_snoc in Ei as [Ei|(-> & ->)]; apply nth_snoc in Ej as [Ej|(-> & ->)].
    + eapply HU; eassumption.
    + exfalso. apply (proj2 (Hshare i di k Ei Pi Pj)). exact Hk.
    + exfalso. apply (proj1 (Hshare j dj k Ej Pj Pi)). exact Hk.
    + reflexivity.
Qed.

Lemma allowed_objs c a c' : allowed c a c' -> (length (c_objs c) <= length (c_objs c'))%nat /\ forall j t, a = Test j t -> (j < length (c_objs c'))%nat.
Proof.
  intros H. inversion H; subst; cbn [c_objs]; rewrite ?app_length; (split; [lia|]); try (intros j0 t0 E; discriminate E).
  intros j0 t0 E. injection E as -> ->. eapply nth_lt. eassumption.
Qed.
Lemma program_tests acts c : program acts c -> forall j t, In (Test j t) acts -> (j < length (c_objs c))%nat.
Proof.
  induction 1 as [|acts c a c' Hp IH Ha]; intros j t Hin; [destruct Hin|]. destruct (allowed_objs c a c' Ha) as (Hle & Hj).
  apply in_app_or in Hin as [Hin|[->|[]]]; [specialize (IH j t Hin); lia|]. apply (Hj j t eq_refl).
Qed.

Lemma step_ok c w acts a c' : WI c w acts -> (forall j t, In (Test j t) acts -> (j < length (c_objs c))%nat) -> allowed c a c' ->
  exists w' o, step w a = (w', o) /\ WI c' w' (acts ++ [a]) /\ right_answer c' a o.
Proof.
  intros HW Hin Hal. pose proof HW as (L1 & L2 & L3 & HT & HD & HO & HU).
  destruct Hal as [c D dyn Hwf|c D dk Hwf Hex|c D p kind Hwf Hp|c D Dt dyn p kind k Hk Hp Hu|c D p kind Hwf Hcm Hp|c D p k Hk Hp|c i t d Hi Hwt|c i d Hi|c i d Hi Hnd|c i d k D kind h La Lb Hi Hpart Hcd Hlen].
  - (* MakeTree *)
    destruct (proj2 (proj2 Hwf)) as (NM & TH). destruct (build_tree_ok D (proj1 Hwf) dyn TH) as (t & Et & Hrt). cbn [step]. rewrite Et.
    eexists _, Done. split; [reflexivity|]. split; [|reflexivity]. unfold WI. cbn [c_trees c_dicts c_objs trees dicts objs].
    split; [rewrite !app_length, L1; reflexivity|]. split; [exact L2|]. split; [exact L3|]. split; [|split; [exact HD|split; [|exact HU]]].
    + intros k Dt dn E. apply nth_snoc in E as [E|(-> & E)].
      * destruct (HT k Dt dn E) as (A & t0 & B & C). split; [exact A|]. exists t0. split; [apply nth_snoc_l; exact B|exact C].
      * injection E as -> ->. split; [exact Hwf|]. exists t. split; [rewrite L1; apply nth_snoc_r|exact Hrt].
    + intros i d E. destruct (HO i d E) as (o & A & B). exists o. split; [exact A|]. eapply obj_ok_keep; [exact B|discriminate| | |]; cbn [c_trees c_dicts dicts].
      * intros k x. apply nth_snoc_l.
      * intros k D0 kind h Ek. exists h. exact Ek.
      * intros k dk _ _ Ek. exists dk. auto.
  - (* MakeDict *)
    eexists _, Done. split; [reflexivity|]. split; [|reflexivity]. unfold WI. cbn [c_trees c_dicts c_objs trees dicts objs].
    split; [exact L1|]. split; [rewrite !app_length, L2; reflexivity|]. split; [exact L3|]. split; [exact HT|split; [|split; [|exact HU]]].
    + intros k D0 kind h E. apply nth_snoc in E as [E|(-> & E)].
      * destruct (HD k D0 kind h E) as (A & d0 & B & C). split; [exact A|]. exists d0. split; [apply nth_snoc_l; exact B|exact C].
      * injection E as -> -> ->. split; [exact Hwf|]. exists dk. split; [rewrite L2; apply nth_snoc_r|]. split; [exact Hex|]. destruct (snd dk); [discriminate|discriminate].
    + intros i d E. destruct (HO i d E) as (o & A & B). exists o. split; [exact A|]. pose proof B as (_ & _ & _ & _ & _ & _ & _ & _ & B9).
      eapply obj_ok_keep; [exact B|discriminate|auto| |]; cbn [c_trees c_dicts dicts].
      * intros k D0 kind h Ek. exists h. apply nth_snoc_l. exact Ek.
      * intros k dk0 Ep _ Ek. exists dk0. split; [|reflexivity]. rewrite Ep in B9. destruct B9 as (_ & _ & (h & B9) & _). apply nth_lt in B9.
        apply nth_snoc in Ek as [Ek|(-> & _)]; [exact Ek|]. exfalso. rewrite L2 in B9. exact (Nat.lt_irrefl _ B9).
  - (* NewPlain *)
    assert (Es : exists st, start D Plain kind None None nothing_saved = Ok st /\ sample_size st = Z.of_nat (length (rows D)) /\ dof_cache st = [] /\ results st = [] /\ ci_test_counter st = 0).
    { destruct kind; (eexists; split; [reflexivity|]; cbn; auto). }
    destruct Es as (st & Es & E1 & E2 & E3 & E4). cbn [step]. rewrite Es. eexists _, Done. split; [reflexivity|]. split; [|reflexivity].
    apply (WI_new c w acts _ (trees w) (dicts w) (c_dicts c)); [exact HW|discriminate|exact L1|exact L2|intros k Dt dn E; apply (HT k Dt dn E)|auto|exact HD|auto|cbn [d_part]; discriminate| |exact Hin].
    intros acts' Et. unfold obj_ok. cbn [g_params g_kind g_part g_state g_data d_params d_kind d_part d_data]. rewrite Et, E1, E2, E3, E4.
    refine (conj eq_refl (conj eq_refl (conj eq_refl (conj Hp (conj eq_refl (conj (dcache_nil D) (conj (logged_nil D p kind 0) (conj eq_refl (conj eq_refl Hwf))))))))).
  - (* NewOnTree *)
    destruct (HT k Dt dyn Hk) as (Hwf & t & Et & Hrt). destruct (start_on_tree Dt dyn kind t Hwf Hrt) as (st & t' & Es & Ead & Hrt' & E1 & E2 & E3 & E4).
    cbn [step]. rewrite Et. cbn [tc_data tc_dyn tc_root]. rewrite Es. eexists _, Done. split; [reflexivity|]. split; [|reflexivity].
    unfold add_object, set_tree, tree_of. cbn [trees dicts objs]. rewrite Ead.
    apply (WI_new c w acts _ (put k {| tc_data := Dt; tc_dyn := dyn; tc_root := t' |} (trees w)) (dicts w) (c_dicts c));
      [exact HW|discriminate|rewrite put_length; exact L1|exact L2| |auto|exact HD|auto|cbn [d_part]; discriminate| |exact Hin].
    + intros k0 D0 dn E. destruct (Nat.eq_dec k k0) as [<-|N].
      * rewrite Hk in E. injection E as <- <-. exists t'. split; [apply put_same; eapply nth_lt; exact Et|exact Hrt'].
      * rewrite put_other by exact N. apply (HT k0 D0 dn E).
    + intros acts' Eta. unfold obj_ok. cbn [g_params g_kind g_part g_state g_data d_params d_kind d_part d_data c_trees]. rewrite Eta, E1, E2, E3, E4.
      refine (conj eq_refl (conj eq_refl (conj eq_refl (conj Hp (conj eq_refl (conj (dcache_nil Dt) (conj (logged_nil Dt p kind 0) (conj eq_refl (conj Hu (ex_intro _ dyn Hk)))))))))).
  - (* NewDcMI, own dictionary *)
    destruct (start_dcMI D kind Hcm) as (st & Es & _ & E1 & E2 & E3 & E4 & _). cbn [step]. rewrite Es. eexists _, Done. split; [reflexivity|]. split; [|reflexivity].
    unfold add_object. cbn [trees dicts objs]. rewrite <- L2.
    apply (WI_new c w acts _ (trees w) (dicts w ++ [([], None)]) (c_dicts c ++ [(D, kind, false)]));
      [exact HW|discriminate|exact L1|rewrite !app_length, L2; reflexivity|intros k Dt dn E; apply (HT k Dt dn E)|intros k D0 kd h; apply nth_snoc_l| | | | |exact Hin].
    + intros k D0 kd h E. apply nth_snoc in E as [E|(-> & E)].
      * destruct (HD k D0 kd h E) as (A & d0 & B & C). split; [exact A|]. exists d0. split; [apply nth_snoc_l; exact B|exact C].
      * injection E as -> -> ->. split; [exact Hwf|]. exists ([], None). split; [rewrite L2; apply nth_snoc_r|]. split; [apply jht_nil|discriminate].
    + intros k dk Hlt E. apply nth_snoc in E as [E|(-> & _)]; [exact E|]. exfalso. rewrite L2 in Hlt. exact (Nat.lt_irrefl _ Hlt).
    + cbn [d_part d_kind]. intros j dj k Ej Pj Pk. injection Pk as <-. destruct (HO j dj Ej) as (oj & _ & (_ & _ & _ & _ & _ & _ & _ & _ & H)). rewrite Pj in H. destruct H as (_ & _ & (h & H) & _). apply nth_lt in H. exfalso. exact (Nat.lt_irrefl _ H).
    + intros acts' Eta. unfold obj_ok. cbn [g_params g_kind g_part g_state g_data d_params d_kind d_part d_data c_dicts dicts]. rewrite Eta, E1, E2, E3, E4.
      refine (conj eq_refl (conj eq_refl (conj eq_refl (conj Hp (conj eq_refl (conj (dcache_nil D) (conj (logged_nil D p kind 0) (conj eq_refl (conj eq_refl (conj Hcm (conj _ _))))))))))).
      * exists false. apply nth_snoc_r.
      * intros dk E. rewrite L2, nth_snoc_r in E. injection E as <-. apply coherent_nil.
  - (* NewDcMI, shared dictionary *)
    destruct (HD k D UnadjustedDoF true Hk) as (Hwf & dk & Edk & Hex & Hc). specialize (Hc eq_refl). destruct dk as [j [[rd ms]|]]; [|exfalso; apply Hc; reflexivity].
    cbn [step]. rewrite Edk. cbn [start requires_cpmfs bind of_option snd fst]. eexists _, Done. split; [reflexivity|]. split; [|reflexivity].
    apply (WI_new c w acts _ (trees w) (dicts w) (c_dicts c)); [exact HW|discriminate|exact L1|exact L2|intros k0 Dt dn E; apply (HT k0 Dt dn E)|auto|exact HD|auto| | |exact Hin].
    + cbn [d_part d_kind]. intros j0 dj k0 Ej Pj Pk. injection Pk as <-. split; [discriminate|]. destruct (HO j0 dj Ej) as (oj & _ & (_ & _ & _ & _ & _ & _ & _ & _ & H)). rewrite Pj in H. destruct H as (_ & _ & (h & H) & _). rewrite Hk in H. injection H as _ <- _. discriminate.
    + intros acts' Eta. unfold obj_ok. cbn [g_params g_kind g_part g_state g_data d_params d_kind d_part d_data c_dicts dicts sample_size dof_cache results ci_test_counter]. rewrite Eta.
      refine (conj eq_refl (conj eq_refl (conj eq_refl (conj Hp (conj eq_refl (conj (dcache_nil D) (conj (logged_nil D p UnadjustedDoF 0) (conj eq_refl (conj eq_refl (conj _ (conj (ex_intro _ true Hk) _))))))))))); discriminate.
  - (* Test *)
    destruct t as [[X Y] Z]. destruct (HO i d Hi) as (o & Eo & (G1 & G2 & G3 & G4 & G5 & G6 & G7 & G8 & G9)). cbn [step]. rewrite Eo, G3.
    assert (Ets : tests_of i (acts ++ [Test i (X, Y, Z)]) = tests_of i acts ++ [(X, Y, Z)]) by (rewrite tests_of_app; cbn [tests_of]; rewrite Nat.eqb_refl; reflexivity).
    assert (Elen : Z.of_nat (length (tests_of i acts ++ [(X, Y, Z)])) = Z.of_nat (length (tests_of i acts)) + 1) by (rewrite app_length; cbn; lia).
    assert (Ep : d_part d = g_part o) by congruence.
    destruct (d_part d) as [|k|k] eqn:Epart.
    + (* plain *)
      destruct G9 as (G9 & Hwf).
      destruct (run_test_ok (d_data d) (proj1 Hwf) (proj1 (proj2 Hwf)) (d_params d) G4 Plain (d_kind d) (g_state o) X Y Z Hwf Logic.I (conj G5 (conj G6 Logic.I)) Hwt) as (r & st & Er & (J1 & J2 & _) & Hres & Elog & Ecnt & _).
      rewrite G9, G1, G2, Er. eexists _, _. split; [reflexivity|]. split.
      * unfold WI, set_object. cbn [trees dicts objs]. rewrite put_length. split; [exact L1|]. split; [exact L2|]. split; [exact L3|]. split; [exact HT|]. split; [exact HD|]. split; [|exact HU].
        intros j dj Ej. destruct (Nat.eq_dec i j) as [<-|N].
        -- rewrite Hi in Ej. injection Ej as <-. eexists. split; [apply put_same; eapply nth_lt; exact Eo|]. unfold obj_ok, with_state. cbn [g_params g_kind g_part g_state g_data]. rewrite Ets, Elog, Ecnt, Elen, Epart, G8.
           refine (conj G1 (conj G2 (conj G3 (conj G4 (conj J1 (conj J2 (conj _ (conj eq_refl (conj G9 Hwf))))))))). apply logged_snoc; [exact G7|]. rewrite G8 in Hres. exact Hres.
        -- destruct (HO j dj Ej) as (oj & Eoj & Hoj). exists oj. split; [rewrite put_other by exact N; exact Eoj|]. eapply obj_ok_keep; [exact Hoj|intros t E; injection E as E _; congruence|auto|intros k D0 kd h H; exists h; exact H|intros k dk _ _ H; exists dk; auto].
      * cbn [right_answer]. exists d, (outcome_of r). split; [exact Hi|]. split; [reflexivity|]. eapply result_outcome; eassumption.
    + (* tree *)
      destruct G9 as (G9 & dyn & Hk). destruct (HT k (d_data d) dyn Hk) as (Hwf & t & Et & Hrt). rewrite Et. cbn [tc_data tc_dyn tc_root].
      rewrite run_on_tree_eq by (rewrite G2; exact G9). rewrite G1, G2.
      assert (Hi0 : inv (d_data d) (WithADTree dyn) (d_kind d) (with_tree t (g_state o))) by (split; [exact G5|split; [exact G6|exists t; split; [reflexivity|exact Hrt]]]).
      destruct (run_test_ok (d_data d) (proj1 Hwf) (proj1 (proj2 Hwf)) (d_params d) G4 (WithADTree dyn) (d_kind d) _ X Y Z Hwf Logic.I Hi0 Hwt) as (r & st & Er & (J1 & J2 & t' & J3 & J4) & Hres & Elog & Ecnt & _).
      rewrite Er. eexists _, _. split; [reflexivity|]. split.
      * unfold WI, set_object, set_tree, tree_of. cbn [trees dicts objs]. rewrite J3, !put_length. split; [exact L1|]. split; [exact L2|]. split; [exact L3|]. split; [|split; [exact HD|split; [|exact HU]]].
        -- intros k0 D0 dn E. destruct (Nat.eq_dec k k0) as [<-|N].
           ++ rewrite Hk in E. injection E as <- <-. split; [exact Hwf|]. exists t'. split; [apply put_same; eapply nth_lt; exact Et|exact J4].
           ++ rewrite put_other by exact N. apply (HT k0 D0 dn E).
        -- intros j dj Ej. destruct (Nat.eq_dec i j) as [<-|N].
           ++ rewrite Hi in Ej. injection Ej as <-. eexists. split; [apply put_same; eapply nth_lt; exact Eo|]. unfold obj_ok, with_state. cbn [g_params g_kind g_part g_state g_data]. cbn [with_tree results ci_test_counter] in Elog, Ecnt, Hres. rewrite Ets, Elog, Ecnt, Elen, Epart, G8.
              refine (conj G1 (conj G2 (conj G3 (conj G4 (conj J1 (conj J2 (conj _ (conj eq_refl (conj G9 (ex_intro _ dyn Hk)))))))))). apply logged_snoc; [exact G7|]. rewrite G8 in Hres. exact Hres.
           ++ destruct (HO j dj Ej) as (oj & Eoj & Hoj). exists oj. split; [rewrite put_other by exact N; exact Eoj|]. eapply obj_ok_keep; [exact Hoj|intros t0 E; injection E as E _; congruence|auto|intros k0 D0 kd h H; exists h; exact H|intros k0 dk _ _ H; exists dk; auto].
      * cbn [right_answer]. exists d, (outcome_of r). split; [exact Hi|]. split; [reflexivity|]. eapply result_outcome; eassumption.
    + (* dictionary *)
      destruct G9 as (G9 & Hcm & (h & Hk) & Hco). destruct (HD k _ _ _ Hk) as (Hwf & dk & Edk & Hex & Hcn). rewrite Edk, G9, G1, G2.
      assert (Hi0 : inv (d_data d) WithDcMI (d_kind d) (with_dict dk (g_state o))) by (split; [exact G5|split; [exact G6|split; [exact Hex|exact (Hco dk Edk)]]]).
      assert (Hcc : forall st r, run_test (d_data d) (d_params d) WithDcMI (d_kind d) (with_dict dk (g_state o)) X Y Z = Ok (r, st) -> jht_counters st = snd dk).
      { intros st r E. unfold run_test in E. destruct (G_from_entropies _ _ _ _ _ _ _ _) as [[G hh]|e]; [|discriminate E]. cbn [bind] in E. destruct (calculate_DoF _ _ _ _ _ _ _ _ _) as [[[df q1] q2]|e]; [|discriminate E]. cbn [bind] in E. destruct (decide _ _ _ _ _ _ _ _) as [r0|e]; [|discriminate E]. cbn [bind] in E. injection E as _ <-. reflexivity. }
      destruct (run_test_ok (d_data d) (proj1 Hwf) (proj1 (proj2 Hwf)) (d_params d) G4 WithDcMI (d_kind d) _ X Y Z Hwf Hcm Hi0 Hwt) as (r & st & Er & (J1 & J2 & J3 & J4) & Hres & Elog & Ecnt & _).
      rewrite Er, (Hcc st r Er). eexists _, _. split; [reflexivity|]. split.
      * unfold WI, set_object, set_dict. cbn [trees dicts objs]. rewrite !put_length. split; [exact L1|]. split; [exact L2|]. split; [exact L3|]. split; [exact HT|split; [|split; [|exact HU]]].
        -- intros k0 D0 kd h0 E. destruct (Nat.eq_dec k k0) as [<-|N].
           ++ rewrite Hk in E. injection E as <- <- <-. split; [exact Hwf|]. exists (jht st, snd dk). split; [apply put_same; eapply nth_lt; exact Edk|]. split; [exact J3|exact Hcn].
           ++ rewrite put_other by exact N. apply (HD k0 D0 kd h0 E).
        -- intros j dj Ej. destruct (Nat.eq_dec i j) as [<-|N].
           ++ rewrite Hi in Ej. injection Ej as <-. eexists. split; [apply put_same; eapply nth_lt; exact Eo|]. unfold obj_ok, with_state. cbn [g_params g_kind g_part g_state g_data dicts]. cbn [with_dict results ci_test_counter] in Elog, Ecnt, Hres. rewrite Ets, Elog, Ecnt, Elen, Epart, G8.
              refine (conj G1 (conj G2 (conj G3 (conj G4 (conj J1 (conj J2 (conj _ (conj eq_refl (conj G9 (conj Hcm (conj (ex_intro _ h Hk) _))))))))))); [apply logged_snoc; [exact G7|]; rewrite G8 in Hres; exact Hres|].
              intros dk0 E0. rewrite put_same in E0 by (eapply nth_lt; exact Edk). injection E0 as <-. exact J4.
           ++ destruct (HO j dj Ej) as (oj & Eoj & Hoj). exists oj. split; [rewrite put_other by exact N; exact Eoj|]. eapply obj_ok_keep; [exact Hoj|intros t0 E; injection E as E _; congruence|auto|intros k0 D0 kd h0 H; exists h0; exact H|].
              cbn [dicts]. intros k0 dk0 Pj Kj E0. destruct (Nat.eq_dec k k0) as [<-|N0]; [exfalso; apply N; symmetry; eapply HU; eassumption|]. rewrite put_other in E0 by exact N0. exists dk0. auto.
      * cbn [right_answer]. exists d, (outcome_of r). split; [exact Hi|]. split; [reflexivity|]. eapply result_outcome; eassumption.
  - (* End without a save path *)
    destruct (HO i d Hi) as (o & Eo & Ho). cbn [step]. rewrite Eo. exists w, Done. split; [|split; [|reflexivity]].
    + destruct (g_part o) as [|k|k] eqn:Ep; try reflexivity. pose proof Ho as (_ & _ & G3 & _ & _ & _ & _ & _ & G9). rewrite <- G3, Ep in G9. destruct G9 as (_ & _ & (h & Hk) & _). destruct (HD k _ _ _ Hk) as (_ & dk & Edk & _). rewrite Edk. reflexivity.
    + unfold WI. split; [exact L1|]. split; [exact L2|]. split; [exact L3|]. split; [exact HT|]. split; [exact HD|]. split; [|exact HU].
      intros j dj Ej. destruct (HO j dj Ej) as (oj & Eoj & Hoj). exists oj. split; [exact Eoj|]. eapply obj_ok_keep; [exact Hoj|discriminate|auto|intros k0 D0 kd h0 H; exists h0; exact H|intros k0 dk _ _ H; exists dk; auto].
  - (* End with a save path, no dictionary *)
    destruct (HO i d Hi) as (o & Eo & Ho). cbn [step]. rewrite Eo. exists w, Done. split; [|split; [|reflexivity]].
    + destruct (g_part o) as [|k|k] eqn:Ep; try reflexivity. exfalso. apply (Hnd k). destruct Ho as (_ & _ & G3 & _). congruence.
    + unfold WI. split; [exact L1|]. split; [exact L2|]. split; [exact L3|]. split; [exact HT|]. split; [exact HD|]. split; [|exact HU].
      intros j dj Ej. destruct (HO j dj Ej) as (oj & Eoj & Hoj). exists oj. split; [exact Eoj|]. eapply obj_ok_keep; [exact Hoj|discriminate|auto|intros k0 D0 kd h0 H; exists h0; exact H|intros k0 dk _ _ H; exists dk; auto].
  - (* End with a save path *)
    destruct (HO i d Hi) as (o & Eo & Ho). pose proof Ho as (_ & _ & G3 & _). assert (Hk : nth_error (c_dicts c) k = Some (D, kind, h)) by (rewrite Hcd, nth_error_app2, Hlen, Nat.sub_diag by lia; reflexivity).
    destruct (HD k D kind h Hk) as (Hwf & dk & Edk & Hex & Hcn). cbn [step]. rewrite Eo, G3, Hpart, Edk. eexists _, Done. split; [reflexivity|]. split; [|reflexivity].
    assert (Hput : forall k0, nth_error (La ++ (D, kind, true) :: Lb) k0 = if Nat.eq_dec k k0 then Some (D, kind, true) else nth_error (c_dicts c) k0).
    { intros k0. rewrite Hcd. clear -Hlen. revert k k0 Hlen. induction La as [|x La IH]; intros k k0 <-; cbn [app length].
      - destruct k0 as [|k0]; reflexivity.
      - destruct k0 as [|k0]; cbn [nth_error]; [destruct (Nat.eq_dec _ _); [lia|reflexivity]|]. rewrite (IH (length La) k0 eq_refl). destruct (Nat.eq_dec (length La) k0), (Nat.eq_dec (Datatypes.S (length La)) (Datatypes.S k0)); try reflexivity; lia. }
    unfold WI, set_dict. cbn [trees dicts objs c_trees c_dicts c_objs]. rewrite put_length. split; [exact L1|]. split; [rewrite <- L2, Hcd, !app_length; reflexivity|]. split; [exact L3|]. split; [exact HT|]. split; [|split; [|exact HU]].
    + intros k0 D0 kd h0 E. rewrite Hput in E. destruct (Nat.eq_dec k k0) as [<-|N].
      * injection E as <- <- <-. split; [exact Hwf|]. eexists. split; [apply put_same; eapply nth_lt; exact Edk|]. split; [exact Hex|discriminate].
      * rewrite put_other by exact N. apply (HD k0 D0 kd h0 E).
    + intros j dj Ej. destruct (HO j dj Ej) as (oj & Eoj & Hoj). exists oj. split; [exact Eoj|]. eapply obj_ok_keep; [exact Hoj|discriminate|auto| |].
      * cbn [c_dicts]. intros k0 D0 kd h0 H. rewrite Hput. destruct (Nat.eq_dec k k0) as [<-|N]; [rewrite Hk in H; injection H as <- <- <-; exists true; reflexivity|exists h0; exact H].
      * cbn [dicts]. intros k0 dk0 _ _ E. destruct (Nat.eq_dec k k0) as [<-|N]; [rewrite put_same in E by (eapply nth_lt; exact Edk); injection E as <-; exists dk; auto|rewrite put_other in E by exact N; exists dk0; auto].
Qed.

Lemma right_answer_mono c a c' : allowed c a c' -> forall b o, right_answer c b o -> right_answer c' b o.
Proof.
  intros H. assert (Hn : forall i d, nth_error (c_objs c) i = Some d -> nth_error (c_objs c') i = Some d) by (inversion H; subst; cbn [c_objs]; intros j dj E; try apply nth_snoc_l; exact E).
  intros b o Hb. destruct b; try exact Hb. destruct Hb as (d & v & E & H'). exists d, v. split; [apply Hn; exact E|exact H'].
Qed.
Theorem program_ok acts c : program acts c -> exists os w, run empty_world acts = (os, w) /\ WI c w acts /\ Forall2 (right_answer c) acts os.
Proof.
  induction 1 as [|acts c a c' Hp (os & w & Er & HW & Hos) Ha].
  - exists [], empty_world. split; [reflexivity|]. split; [|constructor]. assert (Hn : forall (A : Type) k (x : A), nth_error [] k = Some x -> False) by (intros A [|k] x E; discriminate E).
    split; [reflexivity|]. split; [reflexivity|]. split; [reflexivity|]. split; [|split; [|split]]; cbn [empty_ctx c_trees c_dicts c_objs]; intros; exfalso; eapply Hn; eassumption.
  - destruct (step_ok c w acts a c' HW (program_tests acts c Hp) Ha) as (w' & o & Es & HW' & Ho).
    exists (os ++ [o]), w'. rewrite run_snoc, Er, Es. split; [reflexivity|]. split; [exact HW'|].
    apply Forall2_app; [|constructor; [exact Ho|constructor]]. clear -Hos Ha. induction Hos; constructor; [eapply right_answer_mono; eassumption|assumption].
Qed.

(** ** What one test changes *)
Lemma test_effect c w acts i X Y Z d o : WI c w acts -> nth_error (c_objs c) i = Some d -> wf_test (d_data d) (X, Y, Z) -> nth_error (objs w) i = Some (Some o) ->
  exists w' v o', step w (Test i (X, Y, Z)) = (w', Answered v) /\ objs w' = put i (Some o') (objs w) /\ g_part o' = g_part o /\ g_part o = d_part d /\
    match d_part d with
    | DictAt k => exists d1 d2, nth_error (dicts w) k = Some d1 /\ dicts w' = put k d2 (dicts w) /\
        jht_reads (g_state o') = jht_reads (g_state o) + entropies_needed (X, Y, Z) /\
        jht_misses (g_state o') - jht_misses (g_state o) = Z.of_nat (length (fst d2)) - Z.of_nat (length (fst d1)) /\
        (forall key, assoc list_eqb key (fst d1) <> None -> assoc list_eqb key (fst d2) = assoc list_eqb key (fst d1)) /\
        all_known (fst d2) X Y Z /\ (all_known (fst d1) X Y Z -> jht_misses (g_state o') = jht_misses (g_state o))
    | _ => dicts w' = dicts w
    end.
Proof.
  intros (L1 & L2 & L3 & HT & HD & HO & HU) Hi Hwt Eo. destruct (HO i d Hi) as (o0 & Eo0 & (G1 & G2 & G3 & G4 & G5 & G6 & G7 & G8 & G9)).
  rewrite Eo in Eo0. injection Eo0 as <-. cbn [step]. rewrite Eo, G3. destruct (d_part d) as [|k|k] eqn:Epart.
  - destruct G9 as (G9 & Hwf).
    destruct (run_test_ok (d_data d) (proj1 Hwf) (proj1 (proj2 Hwf)) (d_params d) G4 Plain (d_kind d) (g_state o) X Y Z Hwf Logic.I (conj G5 (conj G6 Logic.I)) Hwt) as (r & st & Er & _).
    rewrite G9, G1, G2, Er. eexists _, _, _. split; [reflexivity|]. split; [reflexivity|]. split; [exact G3|]. split; reflexivity.
  - destruct G9 as (G9 & dyn & Hk). destruct (HT k (d_data d) dyn Hk) as (Hwf & t & Et & Hrt). rewrite Et. cbn [tc_data tc_dyn tc_root].
    rewrite run_on_tree_eq by (rewrite G2; exact G9). rewrite G1, G2.
    assert (Hi0 : inv (d_data d) (WithADTree dyn) (d_kind d) (with_tree t (g_state o))) by (split; [exact G5|split; [exact G6|exists t; split; [reflexivity|exact Hrt]]]).
    destruct (run_test_ok (d_data d) (proj1 Hwf) (proj1 (proj2 Hwf)) (d_params d) G4 (WithADTree dyn) (d_kind d) _ X Y Z Hwf Logic.I Hi0 Hwt) as (r & st & Er & _).
    rewrite Er. eexists _, _, _. split; [reflexivity|]. split; [reflexivity|]. split; [exact G3|]. split; reflexivity.
  - destruct G9 as (G9 & Hcm & (h & Hk) & Hco). destruct (HD k _ _ _ Hk) as (Hwf & dk & Edk & Hex & Hcn). rewrite Edk, G9, G1, G2.
    assert (Hi0 : inv (d_data d) WithDcMI (d_kind d) (with_dict dk (g_state o))) by (split; [exact G5|split; [exact G6|split; [exact Hex|exact (Hco dk Edk)]]]).
    destruct (run_test_ok (d_data d) (proj1 Hwf) (proj1 (proj2 Hwf)) (d_params d) G4 WithDcMI (d_kind d) _ X Y Z Hwf Hcm Hi0 Hwt) as (r & st & Er & _ & _ & _ & _ & Hd).
    destruct (Hd eq_refl) as (K1 & K2 & K3 & K4 & K5 & _). cbn [with_dict jht jht_reads jht_misses] in K2, K3, K4, K5.
    rewrite Er. eexists _, _, _. split; [reflexivity|]. split; [reflexivity|]. split; [exact G3|]. split; [reflexivity|]. exists dk. eexists. split; [reflexivity|]. split; [reflexivity|]. cbn [with_state g_state fst].
    split; [exact K2|]. split; [exact K3|]. split; [exact K4|]. split; [exact K1|exact K5].
Qed.

Lemma program_snoc_inv acts a c' : program (acts ++ [a]) c' -> exists c, program acts c /\ allowed c a c'.
Proof. intros H. inversion H as [E|acts0 c a0 c'' Hp Ha E]; [destruct acts; discriminate E|]. apply app_inj_tail in E as (<- & <-). exists c. auto. Qed.
Lemma program_prefix acts1 acts2 : forall c, program (acts1 ++ acts2) c -> exists c1, program acts1 c1.
Proof.
  induction acts2 as [|a acts2 IH] using rev_ind; intros c H; [rewrite app_nil_r in H; exists c; exact H|].
  rewrite app_assoc in H. apply program_snoc_inv in H as (c0 & H & _). apply (IH c0 H).
Qed.
Lemma zsum_put {A} (f : A -> Z) x y l : forall i, nth_error l i = Some y -> zsum (map f (put i x l)) = zsum (map f l) + (f x - f y).
Proof.
  unfold zsum. induction l as [|z l IH]; intros [|i] H; [discriminate|discriminate| |]; rewrite put_cons; cbn [map fold_right].
  - injection H as ->. lia.
  - rewrite (IH i H). lia.
Qed.

(** ** Dictionaries only grow *)
Definition grows (w w' : world) : Prop := forall k d1, nth_error (dicts w) k = Some d1 -> exists d2, nth_error (dicts w') k = Some d2 /\
  forall key, assoc list_eqb key (fst d1) <> None -> assoc list_eqb key (fst d2) = assoc list_eqb key (fst d1).
Lemma grows_refl w : grows w w.
Proof. intros k d1 E. exists d1. auto. Qed.
Lemma grows_same w w' : dicts w' = dicts w -> grows w w'.
Proof. intros H k d1 E. exists d1. rewrite H. auto. Qed.
Lemma grows_trans w1 w2 w3 : grows w1 w2 -> grows w2 w3 -> grows w1 w3.
Proof.
  intros H1 H2 k d1 E1. destruct (H1 k d1 E1) as (d2 & E2 & K2). destruct (H2 k d2 E2) as (d3 & E3 & K3). exists d3. split; [exact E3|].
  intros key Hk. rewrite K3 by (rewrite K2; assumption). apply K2. exact Hk.
Qed.
Lemma step_grows c w acts a c' : WI c w acts -> allowed c a c' -> grows w (fst (step w a)).
Proof.
  intros HW Hal. destruct Hal as [c D dyn Hwf|c D dk Hwf Hex|c D p kind Hwf Hp|c D Dt dyn p kind k Hk Hp Hu|c D p kind Hwf Hcm Hp|c D p k Hk Hp|c i t d Hi Hwt|c i d Hi|c i d Hi Hnd|c i d k D kind h La Lb Hi Hpart Hcd Hlen]; cbn [step].
  - destruct (build_tree D dyn); apply grows_same; reflexivity.
  - intros k d1 E. exists d1. split; [cbn [fst dicts]; apply nth_snoc_l; exact E|auto].
  - destruct (start D Plain kind None None nothing_saved); apply grows_same; reflexivity.
  - destruct (nth_error (trees w) k) as [tc|]; [|apply grows_same; reflexivity]. destruct (start _ _ _ _ _ _); apply grows_same; reflexivity.
  - destruct (start D WithDcMI kind None None nothing_saved); [|apply grows_same; reflexivity]. intros k d1 E. exists d1. split; [cbn [fst add_object dicts]; apply nth_snoc_l; exact E|auto].
  - destruct (nth_error (dicts w) k) as [dk|]; [|apply grows_same; reflexivity]. destruct (start _ _ _ _ _ _); apply grows_same; reflexivity.
  - destruct t as [[X Y] Z]. pose proof HW as (_ & _ & _ & _ & _ & HO & _). destruct (HO i d Hi) as (o & Eo & _).
    destruct (test_effect c w acts i X Y Z d o HW Hi Hwt Eo) as (w' & v & o' & Es & _ & _ & _ & Hd). change (grows w (fst (step w (Test i (X, Y, Z))))). rewrite Es. cbn [fst].
    destruct (d_part d) as [|k|k]; [apply grows_same; exact Hd..|]. destruct Hd as (d1 & d2 & E1 & Ed & _ & _ & K & _).
    intros k0 d0 E0. rewrite Ed. destruct (Nat.eq_dec k k0) as [<-|N]; [|rewrite put_other by exact N; exists d0; auto].
    rewrite E1 in E0. injection E0 as <-. exists d2. split; [apply put_same; eapply nth_lt; exact E1|exact K].
  - destruct (nth_error (objs w) i) as [[o|]|]; try (apply grows_same; reflexivity). destruct (g_part o) as [| |k]; try (apply grows_same; reflexivity). destruct (nth_error (dicts w) k); apply grows_same; reflexivity.
  - destruct (nth_error (objs w) i) as [[o|]|]; try (apply grows_same; reflexivity). destruct (g_part o) as [| |k]; try (apply grows_same; reflexivity). destruct (nth_error (dicts w) k) as [dk|] eqn:E; [|apply grows_same; reflexivity].
    intros k0 d0 E0. cbn [fst set_dict dicts]. destruct (Nat.eq_dec k k0) as [<-|N]; [|rewrite put_other by exact N; exists d0; auto]. rewrite E in E0. injection E0 as <-. eexists. split; [apply put_same; eapply nth_lt; exact E|]. cbn [fst]. auto.
  - destruct (nth_error (objs w) i) as [[o|]|]; try (apply grows_same; reflexivity). destruct (g_part o) as [| |k0]; try (apply grows_same; reflexivity). destruct (nth_error (dicts w) k0) as [dk|] eqn:E; [|apply grows_same; reflexivity].
    intros k1 d0 E0. cbn [fst set_dict dicts]. destruct (Nat.eq_dec k0 k1) as [<-|N]; [|rewrite put_other by exact N; exists d0; auto]. rewrite E in E0. injection E0 as <-. eexists. split; [apply put_same; eapply nth_lt; exact E|]. cbn [fst]. auto.
Qed.
Lemma run_grows acts1 acts2 : forall c, program (acts1 ++ acts2) c -> grows (snd (run empty_world acts1)) (snd (run empty_world (acts1 ++ acts2))).
Proof.
  induction acts2 as [|a acts2 IH] using rev_ind; intros c H; [rewrite app_nil_r; apply grows_refl|].
  rewrite app_assoc in H. rewrite app_assoc. apply program_snoc_inv in H as (c0 & H & Ha). eapply grows_trans; [apply (IH c0 H)|].
  destruct (program_ok _ _ H) as (os & w & Er & HW & _). rewrite run_snoc, Er. cbn [snd]. pose proof (step_grows _ _ _ _ _ HW Ha) as G. destruct (step w a) as [w2 o]. exact G.
Qed.

(** ** Counts *)
Definition miss_of (k : nat) (o : option gobj) : Z :=
  match o with Some o => match g_part o with DictAt k' => if (k' =? k)%nat then jht_misses (g_state o) else 0 | _ => 0 end | None => 0 end.
Lemma test_counts c w acts i t c' w' v : WI c w acts -> allowed c (Test i t) c' -> step w (Test i t) = (w', v) -> forall k, misses_on k w' - misses_on k w = entries k w' - entries k w.
Proof.
  intros HW Ha Es k. inversion Ha as [| | | | | |c0 i0 t0 d Hi Hwt| | |]; subst. destruct t as [[X Y] Z]. pose proof HW as (_ & _ & _ & _ & _ & HO & _). destruct (HO i d Hi) as (o & Eo & _).
  destruct (test_effect c' w acts i X Y Z d o HW Hi Hwt Eo) as (w1 & v1 & o' & Es1 & Eobj & P1 & P2 & Hd). rewrite Es in Es1. injection Es1 as <- _.
  change (zsum (map (miss_of k) (objs w')) - zsum (map (miss_of k) (objs w)) = entries k w' - entries k w). rewrite Eobj, (zsum_put (miss_of k) (Some o') (Some o) (objs w) i Eo).
  cbn [miss_of]. rewrite P1, P2. unfold entries. destruct (d_part d) as [|k0|k0]; [rewrite Hd; lia..|]. destruct Hd as (d1 & d2 & E1 & Ed & _ & Hm & _). rewrite Ed.
  destruct (Nat.eqb_spec k0 k) as [->|N]; [|rewrite put_other by exact N; lia]. rewrite put_same by (eapply nth_lt; exact E1). rewrite E1. lia.
Qed.

(** ** What an object uses never changes *)
Lemma step_part w a i o : nth_error (objs w) i = Some (Some o) -> exists o', nth_error (objs (fst (step w a))) i = Some (Some o') /\ g_part o' = g_part o.
Proof.
  intros E. assert (Hsame : exists o', nth_error (objs w) i = Some (Some o') /\ g_part o' = g_part o) by (exists o; auto).
  assert (Hadd : forall x, exists o', nth_error (objs w ++ [x]) i = Some (Some o') /\ g_part o' = g_part o) by (intros x; exists o; split; [apply nth_snoc_l; exact E|reflexivity]).
  assert (Hset : forall j o1 st, nth_error (objs w) j = Some (Some o1) -> exists o', nth_error (put j (Some (with_state o1 st)) (objs w)) i = Some (Some o') /\ g_part o' = g_part o).
  { intros j o1 st Ej. destruct (Nat.eq_dec j i) as [->|N]; [|rewrite put_other by exact N; exact Hsame]. rewrite Ej in E. injection E as ->. eexists. split; [apply put_same; eapply nth_lt; exact Ej|reflexivity]. }
  destruct a as [D dyn|d|D p kind|D p kind k|D p kind [k|]|j [[X Y] Z]|j save]; cbn [step].
  - destruct (build_tree D dyn); exact Hsame.
  - exact Hsame.
  - destruct (start D Plain kind None None nothing_saved); apply Hadd.
  - destruct (nth_error (trees w) k); [|apply Hadd]. destruct (start _ _ _ _ _ _); apply Hadd.
  - destruct (nth_error (dicts w) k); [|apply Hadd]. destruct (start _ _ _ _ _ _); apply Hadd.
  - destruct (start _ _ _ _ _ _); apply Hadd.
  - destruct (nth_error (objs w) j) as [[o1|]|] eqn:Ej; try exact Hsame. destruct (g_part o1) as [|k|k].
    + destruct (run_test _ _ _ _ _ _ _ _) as [[r st]|e]; [apply Hset; exact Ej|exact Hsame].
    + destruct (nth_error (trees w) k) as [tc|]; [|exact Hsame]. destruct (run_on_tree _ _ _ _ _ _ _ _ _) as [[r st]|e]; [apply Hset; exact Ej|exact Hsame].
    + destruct (nth_error (dicts w) k) as [dk|]; [|exact Hsame]. destruct (run_test _ _ _ _ _ _ _ _) as [[r st]|e]; [apply Hset; exact Ej|exact Hsame].
  - destruct (nth_error (objs w) j) as [[o1|]|] eqn:Ej; try exact Hsame. destruct (g_part o1) as [|k|k]; try exact Hsame. destruct (nth_error (dicts w) k); [destruct save; exact Hsame|exact Hsame].
Qed.
Lemma run_part acts : forall w i o, nth_error (objs w) i = Some (Some o) -> exists o', nth_error (objs (snd (run w acts))) i = Some (Some o') /\ g_part o' = g_part o.
Proof.
  induction acts as [|a acts IH]; intros w i o E; [exists o; auto|]. cbn [run]. destruct (step_part w a i o E) as (o1 & E1 & P1). destruct (step w a) as [w1 v]. cbn [fst] in E1.
  destruct (IH w1 i o1 E1) as (o2 & E2 & P2). destruct (run w1 acts) as [os w2]. exists o2. split; [exact E2|congruence].
Qed.
Lemma run_app acts1 acts2 : forall w, run w (acts1 ++ acts2) = let '(os1, w1) := run w acts1 in let '(os2, w2) := run w1 acts2 in (os1 ++ os2, w2).
Proof.
  induction acts1 as [|a acts1 IH]; intros w; cbn [app run]; [destruct (run w acts2); reflexivity|]. destruct (step w a) as [w1 v]. rewrite IH. destruct (run w1 acts1) as [os1 w2]. destruct (run w2 acts2); reflexivity.
Qed.
