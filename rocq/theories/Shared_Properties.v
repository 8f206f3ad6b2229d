(** Theorems about G-test objects that are alive at the same time and share AD-trees or tables of
    joint entropies (C66). *)
From Coq Require Import Reals Lra.
From Verif Require Import Base AD_Model AD_Query_Model AD_Spec AD_Proofs AD_Examples Prob_Spec Prob_Proofs MB_Model MB_Cache_Proofs GTest_Model GTest_Spec
  GTest_Tables_Proofs GTest_DoF_Proofs GTest_Cache_Proofs GTest_Impl_Proofs GTest_AD_Proofs GTest_Proofs GTest_More_Proofs GTest_Properties Shared_Model Shared_Spec Shared_Proofs.
Open Scope Z_scope.

(** ** C66 *)
(** whatever objects share what, and in whatever order their calls are interleaved: every call
    answers as it should, every object's log is that of its own tests, and every dictionary holds
    exact joint entropies *)
Theorem C66_any_interleaving : forall acts c, program acts c ->
  exists os w, run empty_world acts = (os, w) /\ Forall2 (right_answer c) acts os /\
    (forall i d, nth_error (c_objs c) i = Some d -> exists o, nth_error (objs w) i = Some (Some o) /\
       logged (d_data d) (d_params d) (d_kind d) 0 (tests_of i acts) (results (g_state o)) /\ ci_test_counter (g_state o) = Z.of_nat (length (tests_of i acts))) /\
    (forall k D kind h, nth_error (c_dicts c) k = Some (D, kind, h) -> exists dk, nth_error (dicts w) k = Some dk /\ exact_entropies D (fst dk)).
Proof.
  intros acts c Hp. destruct (program_ok acts c Hp) as (os & w & Er & (_ & _ & _ & _ & HD & HO & _) & Hos). exists os, w.
  split; [exact Er|]. split; [exact Hos|]. split.
  - intros i d Hi. destruct (HO i d Hi) as (o & Eo & (_ & _ & _ & _ & _ & _ & H7 & H8 & _)). exists o. auto.
  - intros k D kind h Hk. destruct (HD k D kind h Hk) as (_ & dk & E & Hex & _). exists dk. auto.
Qed.
Print Assumptions C66_any_interleaving.

(** an object's answers do not depend on what it shares, nor on what the other objects do: they
    are those of an object of its own *)
Theorem C66_as_if_alone : forall acts c i d, program acts c -> nth_error (c_objs c) i = Some d ->
  exists os w o st os' st', run empty_world acts = (os, w) /\ nth_error (objs w) i = Some (Some o) /\
    start (d_data d) Plain (d_kind d) None None no_files = Ok st /\
    run_tests (d_data d) (d_params d) Plain (d_kind d) st (tests_of i acts) = Ok (os', st') /\ results (g_state o) = results st'.
Proof.
  intros acts c i d Hp Hi. destruct (program_ok acts c Hp) as (os & w & Er & (_ & _ & _ & HT & HD & HO & _) & Hos).
  destruct (HO i d Hi) as (o & Eo & (_ & _ & _ & H4 & _ & _ & H7 & H8 & H9)).
  assert (Hwf : wf_for (d_data d) Plain).
  { destruct (d_part d) as [|k|k]; [apply H9| |].
    - destruct H9 as (_ & dyn & Hk). destruct (HT _ _ _ Hk) as ((A & B & _) & _). exact (conj A (conj B Logic.I)).
    - destruct H9 as (_ & _ & (h & Hk) & _). destruct (HD _ _ _ _ Hk) as ((A & B & _) & _). exact (conj A (conj B Logic.I)). }
  assert (Hts : Forall (wf_test (d_data d)) (tests_of i acts)).
  { clear -Hp Hi. revert d Hi. induction Hp as [|acts c a c' Hp IH Ha]; intros d Hi; [constructor|]. rewrite tests_of_app. apply Forall_app.
    assert (Hnew : nth_error (c_objs c) i = Some d \/ i = length (c_objs c)).
    { inversion Ha; subst; cbn [c_objs] in Hi; try (left; exact Hi); apply nth_snoc in Hi as [Hi|(-> & _)]; auto. }
    destruct Hnew as [Hold| ->].
    - split; [apply IH; exact Hold|]. destruct a as [| | | | |j t|]; cbn [tests_of]; try constructor. destruct (Nat.eqb_spec j i) as [->|N]; [|constructor]. constructor; [|constructor].
      inversion Ha as [| | | | | |c0 i0 t0 d0 Hi0 Hw0| | |]; subst. congruence.
    - assert (En : forall l, (forall j t, In (Test j t) l -> (j < length (c_objs c))%nat) -> tests_of (length (c_objs c)) l = []).
      { induction l as [|x l IHl]; intros Hl; [reflexivity|]. assert (Hl' : forall j t, In (Test j t) l -> (j < length (c_objs c))%nat) by (intros j t H; apply (Hl j t); right; exact H).
        destruct x as [| | | | |j t|]; cbn [tests_of]; try (apply IHl; exact Hl'). destruct (Nat.eqb_spec j (length (c_objs c))) as [->|N]; [|apply IHl; exact Hl'].
        exfalso. apply (Nat.lt_irrefl (length (c_objs c))). apply (Hl _ t). left. reflexivity. }
      split; [rewrite En by (apply program_tests; exact Hp); constructor|]. destruct a as [| | | | |j t|]; cbn [tests_of]; try constructor.
      inversion Ha as [| | | | | |c0 i0 t0 d0 Hi0 Hw0| | |]; subst. destruct (Nat.eqb_spec j (length (c_objs c'))) as [->|N]; [|constructor]. apply nth_lt in Hi0. lia. }
  destruct (start_fresh (d_data d) (d_params d) Plain (d_kind d) H4 Hwf Logic.I) as (st & Es & Hinv & E1 & E2).
  destruct (run_tests_ok _ (proj1 Hwf) (proj1 (proj2 Hwf)) (d_params d) H4 Plain (d_kind d) _ Hwf Logic.I Hts st Hinv) as (os' & st' & rs & Erun & _ & _ & Elog & Hlog & _).
  exists os, w, o, st, os', st'. repeat split; try assumption. rewrite Elog, E1. cbn [app]. rewrite E2 in Hlog.
  destruct H7 as (L1 & H7). destruct Hlog as (L2 & Hlog). apply (nth_ext _ _ {| r_index := 0; r_X := 0; r_Y := 0; r_Z := []; r_independent := None; r_G := 0%R; r_p := 0%R; r_DoF := 0 |} {| r_index := 0; r_X := 0; r_Y := 0; r_Z := []; r_independent := None; r_G := 0%R; r_p := 0%R; r_DoF := 0 |}); [congruence|].
  intros n Hn. destruct (nth_error (tests_of i acts) n) as [[[X Y] Z]|] eqn:Et; [|apply nth_error_None in Et; lia].
  destruct (nth_error (results (g_state o)) n) as [r1|] eqn:E1r; [|apply nth_error_None in E1r; lia]. destruct (nth_error rs n) as [r2|] eqn:E2r; [|apply nth_error_None in E2r; lia].
  rewrite (nth_error_nth _ _ _ E1r), (nth_error_nth _ _ _ E2r). pose proof (H7 n X Y Z r1 Et E1r) as A. pose proof (Hlog n X Y Z r2 Et E2r) as B.
  destruct A as (A1 & A2 & A3 & A4 & A5 & A6 & A7). destruct B as (B1 & B2 & B3 & B4 & B5 & B6 & B7). destruct r1, r2. cbn in *. subst.
  destruct (enough (d_data d) (d_params d) (dof_for (d_data d) (d_kind d) X Y Z)) eqn:En.
  - destruct (A6 eq_refl) as (-> & -> & b & -> & Hb). destruct (B6 eq_refl) as (-> & -> & b' & -> & Hb'). do 2 f_equal. destruct b, b'; try reflexivity; [symmetry; apply Hb', Hb; reflexivity|apply Hb, Hb'; reflexivity].
  - destruct (A7 eq_refl) as (-> & -> & ->). destruct (B7 eq_refl) as (-> & -> & ->). reflexivity.
Qed.
Print Assumptions C66_as_if_alone.

(** the objects that use a dictionary compute each joint entropy once between them: over any
    tests, what they count as computed is what the dictionary gained *)
Theorem C66_computed_once : forall acts1 acts2 c, program (acts1 ++ acts2) c -> Forall is_test acts2 ->
  exists os1 w1 os2 w2, run empty_world acts1 = (os1, w1) /\ run empty_world (acts1 ++ acts2) = (os2, w2) /\
    forall k, misses_on k w2 - misses_on k w1 = entries k w2 - entries k w1.
Proof.
  intros acts1 acts2 c Hp Ht. destruct (run empty_world acts1) as [os1 w1] eqn:E1. destruct (run empty_world (acts1 ++ acts2)) as [os2 w2] eqn:E2. exists os1, w1, os2, w2. split; [reflexivity|]. split; [reflexivity|].
  revert c os2 w2 Hp E2. induction acts2 as [|a acts2 IH] using rev_ind; intros c os2 w2 Hp E2.
  - rewrite app_nil_r, E1 in E2. injection E2 as _ <-. intros k. lia.
  - apply Forall_app in Ht as (Ht & Ha). inversion Ha as [|? ? Hta _]; subst. rewrite app_assoc in Hp, E2. apply program_snoc_inv in Hp as (c0 & Hp & Hal).
    destruct (program_ok _ _ Hp) as (os & w & Er & HW & _). rewrite run_snoc, Er in E2. destruct (step w a) as [w' v] eqn:Es. injection E2 as _ <-. specialize (IH Ht c0 os w Hp Er).
    intros k. pose proof (IH k) as A. destruct a as [| | | | |i t|]; try destruct Hta. pose proof (test_counts _ _ _ _ _ _ _ _ HW Hal Es k) as C. lia.
Qed.
Print Assumptions C66_computed_once.

(** a test that one object has done costs the objects that share its dictionary no entropy,
    whatever happens in between; and no entry is ever changed *)
Theorem C66_no_recomputation : forall acts1 i t acts2 j c di dj k, program (acts1 ++ Test i t :: acts2 ++ [Test j t]) c ->
  nth_error (c_objs c) i = Some di -> nth_error (c_objs c) j = Some dj -> d_part di = DictAt k -> d_part dj = DictAt k ->
  exists os1 w1 os2 w2, run empty_world (acts1 ++ Test i t :: acts2) = (os1, w1) /\ run empty_world (acts1 ++ Test i t :: acts2 ++ [Test j t]) = (os2, w2) /\
    misses_on k w2 = misses_on k w1 /\ entries k w2 = entries k w1.
Proof.
  intros acts1 i t acts2 j c di dj k Hp Hi Hj Pi Pj.
  replace (acts1 ++ Test i t :: acts2 ++ [Test j t]) with ((acts1 ++ Test i t :: acts2) ++ [Test j t]) in * by (rewrite <- app_assoc; reflexivity).
  apply program_snoc_inv in Hp as (c0 & Hp & Hal). destruct (program_ok _ _ Hp) as (os1 & w1 & Er1 & HW1 & _). pose proof (step_ok _ _ _ _ _ HW1 (program_tests _ _ Hp) Hal) as (w2 & v & Es & _ & _).
  exists os1, w1, (os1 ++ [v]), w2. split; [exact Er1|]. split; [rewrite run_snoc, Er1, Es; reflexivity|].
  pose proof (test_counts _ _ _ _ _ _ _ _ HW1 Hal Es k) as Hc.
  inversion Hal as [| | | | | |c1 j0 t0 dj' Hj' Hwt| | |]; subst. rewrite Hj in Hj'. injection Hj' as <-. destruct t as [[X Y] Z].
  enough (Hm : misses_on k w2 = misses_on k w1) by (split; [exact Hm|lia]).
  (* what the first test left in the dictionary *)
  assert (Hpre : exists ca, program (acts1 ++ [Test i (X, Y, Z)]) ca) by (apply (program_prefix (acts1 ++ [Test i (X, Y, Z)]) acts2 c); rewrite <- app_assoc; exact Hp).
  destruct Hpre as (ca & Hpa). pose proof Hpa as Hpa'. apply program_snoc_inv in Hpa' as (cb & Hpb & Hab). destruct (program_ok _ _ Hpb) as (osb & wb & Erb & HWb & _).
  inversion Hab as [| | | | | |c2 i0 t0 di' Hi' Hwt'| | |]; subst.
  destruct (HWb) as (_ & _ & _ & _ & _ & HOb & _). destruct (HOb i di' Hi') as (ob & Eob & Hob). 
  destruct (test_effect ca wb acts1 i X Y Z di' ob HWb Hi' Hwt' Eob) as (wa & va & oa & Esa & Eoa & Pa1 & Pa2 & Hda).
  assert (Era : snd (run empty_world (acts1 ++ [Test i (X, Y, Z)])) = wa) by (rewrite run_snoc, Erb, Esa; reflexivity).
  assert (Er1' : snd (run empty_world ((acts1 ++ [Test i (X, Y, Z)]) ++ acts2)) = w1) by (rewrite <- app_assoc; cbn [app]; rewrite Er1; reflexivity).
  assert (Hgr : grows wa w1) by (rewrite <- Era, <- Er1'; apply (run_grows _ _ c); rewrite <- app_assoc; exact Hp).
  assert (Hpart : d_part di' = DictAt k).
  { assert (Eia : nth_error (objs wa) i = Some (Some oa)) by (rewrite Eoa; apply put_same; eapply nth_lt; exact Eob).
    destruct (run_part acts2 wa i oa Eia) as (o1 & Eo1 & Po1). pose proof Er1' as E. rewrite run_app in E. destruct (run empty_world (acts1 ++ [Test i (X, Y, Z)])) as [osx wx]. cbn [snd] in Era. subst wx.
    destruct (run wa acts2) as [osy wy]. cbn [snd] in E, Eo1. subst wy. destruct HW1 as (_ & _ & _ & _ & _ & HO1 & _). destruct (HO1 i di Hi) as (o2 & Eo2 & (_ & _ & G3 & _)). rewrite Eo1 in Eo2. injection Eo2 as <-. congruence. }
  rewrite Hpart in Hda. destruct Hda as (db & da & Edb & Eda & _ & _ & _ & Hka & _).
  assert (Ea : nth_error (dicts wa) k = Some da) by (rewrite Eda; apply put_same; eapply nth_lt; exact Edb).
  destruct (Hgr k da Ea) as (d1 & Ed1 & Hkeep).
  assert (Hk1 : all_known (fst d1) X Y Z) by (intros vs Hvs Hne; rewrite Hkeep by (apply Hka; assumption); apply Hka; assumption).
  (* the second test *)
  pose proof HW1 as (_ & _ & _ & _ & _ & HO1 & _). destruct (HO1 j dj Hj) as (oj & Eoj & _).
  destruct (test_effect c w1 _ j X Y Z dj oj HW1 Hj Hwt Eoj) as (w2' & v' & oj' & Es' & Eo' & Q1 & Q2 & Hd). rewrite Es in Es'. injection Es' as <- _.
  rewrite Pj in Hd. destruct Hd as (e1 & e2 & Ee1 & _ & _ & _ & _ & _ & Hm0). rewrite Ed1 in Ee1. injection Ee1 as <-. specialize (Hm0 Hk1).
  change (zsum (map (miss_of k) (objs w2)) = zsum (map (miss_of k) (objs w1))). rewrite Eo', (zsum_put (miss_of k) (Some oj') (Some oj) (objs w1) j Eoj).
  cbn [miss_of]. rewrite Q1, Q2, Pj, Nat.eqb_refl. lia.
Qed.
Print Assumptions C66_no_recomputation.

(** an object counts its own lookups only *)
Theorem C66_own_lookups : forall acts1 acts2 c c1 i d k, program (acts1 ++ acts2) c -> program acts1 c1 -> nth_error (c_objs c1) i = Some d -> d_part d = DictAt k -> Forall is_test acts2 ->
  exists os1 w1 os2 w2 o1 o2, run empty_world acts1 = (os1, w1) /\ run empty_world (acts1 ++ acts2) = (os2, w2) /\
    nth_error (objs w1) i = Some (Some o1) /\ nth_error (objs w2) i = Some (Some o2) /\
    jht_reads (g_state o2) = jht_reads (g_state o1) + zsum (map entropies_needed (tests_of i acts2)).
Proof.
  intros acts1 acts2 c c1 i d k Hp Hp1 Hi Pi Ht. destruct (program_ok _ _ Hp1) as (os1 & w1 & E1 & HW1 & _). pose proof HW1 as (_ & _ & _ & _ & _ & HO1 & _). destruct (HO1 i d Hi) as (o1 & Eo1 & (_ & _ & G3 & _)).
  exists os1, w1. cut (exists os2 w2 o2, run empty_world (acts1 ++ acts2) = (os2, w2) /\ nth_error (objs w2) i = Some (Some o2) /\ g_part o2 = DictAt k /\ jht_reads (g_state o2) = jht_reads (g_state o1) + zsum (map entropies_needed (tests_of i acts2))).
  { intros (os2 & w2 & o2 & A & B & _ & C). exists os2, w2, o1, o2. auto. }
  revert c Hp. induction acts2 as [|a acts2 IH] using rev_ind; intros c Hp.
  - exists os1, w1, o1. rewrite app_nil_r. split; [exact E1|]. split; [exact Eo1|]. split; [congruence|]. cbn. lia.
  - apply Forall_app in Ht as (Ht & Ha). inversion Ha as [|? ? Hta _]; subst. rewrite app_assoc in Hp. rewrite app_assoc. apply program_snoc_inv in Hp as (c0 & Hp & Hal).
    destruct (IH Ht c0 Hp) as (os2 & w2 & o2 & E2 & Eo2 & P2 & R2). destruct (program_ok _ _ Hp) as (osx & wx & Ex & HWx & _). rewrite E2 in Ex. injection Ex as <- <-.
    destruct a as [| | | | |j [[X Y] Z]|]; try destruct Hta. inversion Hal as [| | | | | |cx j0 t0 dj Hj Hwt| | |]; subst. pose proof HWx as (_ & _ & _ & _ & _ & HOx & _). destruct (HOx j dj Hj) as (oj & Eoj & _).
    destruct (test_effect _ _ _ j X Y Z dj oj HWx Hj Hwt Eoj) as (w3 & v & oj' & Es & Eo3 & Q1 & Q2 & Hd). rewrite run_snoc, E2, Es. eexists. exists w3. rewrite tests_of_app. cbn [tests_of].
    destruct (Nat.eqb_spec j i) as [->|N].
    + rewrite Eo2 in Eoj. injection Eoj as <-. rewrite <- Q2, P2 in Hd. destruct Hd as (d1 & d2 & _ & _ & Hr & _). exists oj'. split; [reflexivity|]. split; [rewrite Eo3; apply put_same; eapply nth_lt; exact Eo2|]. split; [congruence|].
      assert (Za : forall l m, zsum (l ++ m) = zsum l + zsum m) by (clear; intros l m; unfold zsum; induction l as [|x l IHl]; [reflexivity|]; cbn [app fold_right]; rewrite IHl; lia).
      rewrite map_app, Za, Hr, R2. cbn. lia.
    + exists o2. split; [reflexivity|]. split; [rewrite Eo3, put_other by exact N; exact Eo2|]. split; [exact P2|]. rewrite app_nil_r. exact R2.
Qed.
Print Assumptions C66_own_lookups.

(** ** What goes wrong otherwise *)
Definition one_test_twice (D1 D2 : dataset) (p : params) (k1 k2 : dof_kind) (t : test) : list action :=
  [MakeDict ([], Some (0, 0)); NewDcMI D1 p k1 (Some 0%nat); NewDcMI D2 p k2 (Some 0%nat); Test 0 t; Test 1 t].
Definition new_obj (D : dataset) (p : params) (kind : dof_kind) : gobj :=
  {| g_data := D; g_params := p; g_kind := kind; g_part := DictAt 0;
     g_state := {| ad_tree := None; sample_size := Z.of_nat (length (rows D)); jht := []; jht_counters := Some (0, 0); jht_reads := 0; jht_misses := 0; dof_cache := []; results := []; ci_test_counter := 0 |} |}.
Lemma three D1 D2 p k1 k2 acts : k1 <> StructuralDoF -> k2 <> StructuralDoF ->
  run empty_world (MakeDict ([], Some (0, 0)) :: NewDcMI D1 p k1 (Some 0%nat) :: NewDcMI D2 p k2 (Some 0%nat) :: acts) =
  let '(os, w) := run {| trees := []; dicts := [([], Some (0, 0))]; objs := [Some (new_obj D1 p k1); Some (new_obj D2 p k2)] |} acts in (Done :: Done :: Done :: os, w).
Proof.
  intros H1 H2. destruct k1; try congruence; destruct k2; try congruence; unfold run at 1; fold run;
    match goal with |- context [step empty_world ?a] => let x := eval cbn in (step empty_world a) in change (step empty_world a) with x end; cbv iota beta;
    match goal with |- context [step ?w (NewDcMI D1 p ?k ?r)] => let x := eval cbv [step nth_error dicts start requires_cpmfs bind of_option snd fst add_object objs trees app read_file f_dofs nothing_saved] in (step w (NewDcMI D1 p k r)) in change (step w (NewDcMI D1 p k r)) with x end; cbv iota beta;
    match goal with |- context [step ?w (NewDcMI D2 p ?k ?r)] => let x := eval cbv [step nth_error dicts start requires_cpmfs bind of_option snd fst add_object objs trees app read_file f_dofs nothing_saved] in (step w (NewDcMI D2 p k r)) in change (step w (NewDcMI D2 p k r)) with x end; cbv iota beta;
    unfold new_obj, nrows; destruct (run _ acts); reflexivity.
Qed.
Lemma step_dict w i X Y Z o k d : nth_error (objs w) i = Some (Some o) -> g_part o = DictAt k -> nth_error (dicts w) k = Some d ->
  step w (Test i (X, Y, Z)) = match run_test (g_data o) (g_params o) WithDcMI (g_kind o) (with_dict d (g_state o)) X Y Z with
    | Ok (r, st) => (set_object i (with_state o st) (set_dict k (jht st, jht_counters st) w), Answered (outcome_of r)) | Err e => (w, Raised e) end.
Proof. intros H1 H2 H3. cbn [step]. rewrite H1, H2, H3. reflexivity. Qed.
Lemma step_end w i o k d : nth_error (objs w) i = Some (Some o) -> g_part o = DictAt k -> nth_error (dicts w) k = Some d ->
  step w (End i true) = (set_dict k (fst d, Some (jht_reads (g_state o), jht_misses (g_state o))) w, Done).
Proof. intros H1 H2 H3. cbn [step]. rewrite H1, H2, H3. reflexivity. Qed.

(** the entropies that an object with other degrees of freedom has left in the dictionary make the
    same test fail on an object with CachedStructuralDoF *)
Theorem C66_cached_dof_cannot_share : forall D p t, wf_for D WithDcMI -> order_ok p -> wf_test D t ->
  exists v w, run empty_world (one_test_twice D D p UnadjustedDoF CachedStructuralDoF t) = ([Done; Done; Done; Answered v; Raised KeyError], w).
Proof.
  intros D p [[X Y] Z] Hwf Hp Hwt. unfold one_test_twice. rewrite three by discriminate. set (s1 := with_dict ([], Some (0, 0)) (g_state (new_obj D p UnadjustedDoF))).
  assert (Hi : inv D WithDcMI UnadjustedDoF s1) by (split; [reflexivity|split; [apply dcache_nil|split; [apply jht_nil|discriminate]]]).
  destruct (run_test_ok D (proj1 Hwf) (proj1 (proj2 Hwf)) p Hp WithDcMI UnadjustedDoF s1 X Y Z Hwf ltac:(discriminate) Hi Hwt) as (r & st & Er & (_ & _ & Hj & _) & _ & _ & _ & Hd).
  destruct (Hd eq_refl) as (Hk & _). cbn [run]. match goal with |- context [step ?w (Test 0 _)] => rewrite (step_dict w 0 X Y Z (new_obj D p UnadjustedDoF) 0 ([], Some (0, 0)) eq_refl eq_refl eq_refl) end.
  change (run_test _ _ _ _ _ X Y Z) with (run_test D p WithDcMI UnadjustedDoF s1 X Y Z). rewrite Er. cbv iota beta.
  match goal with |- context [step ?w (Test 1 _)] => rewrite (step_dict w 1 X Y Z (new_obj D p CachedStructuralDoF) 0 (jht st, jht_counters st) eq_refl eq_refl eq_refl) end.
  cbn [new_obj g_data g_params g_kind]. rewrite (run_test_keyerror D (proj1 (proj2 Hwf)) p Hp _ X Y Z); [eexists _, _; reflexivity|reflexivity|exact Hj|apply dcache_nil|exact Hwt|apply Hk; [left; reflexivity|discriminate]|reflexivity].
Qed.
Print Assumptions C66_cached_dof_cannot_share.

(** the dictionary of a running object has no counters: it cannot be handed on before the object
    is ended with a save path *)
Theorem C66_running_object_cannot_share : forall D p, exists w, run empty_world [NewDcMI D p UnadjustedDoF None; NewDcMI D p UnadjustedDoF (Some 0%nat)] = ([Done; Raised KeyError], w).
Proof. intros D p. eexists. reflexivity. Qed.
Print Assumptions C66_running_object_cannot_share.

(** the counters left in a shared dictionary are those of the object ended last: the lookups and
    computations of the others are lost *)
Theorem C66_counters_of_the_last : forall D p t, wf_for D WithDcMI -> order_ok p -> wf_test D t ->
  exists os w j, run empty_world (one_test_twice D D p UnadjustedDoF UnadjustedDoF t ++ [End 0 true; End 1 true]) = (os, w) /\
    nth_error (dicts w) 0 = Some (j, Some (entropies_needed t, 0)) /\ misses_on 0 w = Z.of_nat (length j) /\ 0 < misses_on 0 w.
Proof.
  intros D p [[X Y] Z] Hwf Hp Hwt. unfold one_test_twice. cbn [app]. rewrite three by discriminate. set (s1 := with_dict ([], Some (0, 0)) (g_state (new_obj D p UnadjustedDoF))).
  assert (Hi : inv D WithDcMI UnadjustedDoF s1) by (split; [reflexivity|split; [apply dcache_nil|split; [apply jht_nil|discriminate]]]).
  destruct (run_test_ok D (proj1 Hwf) (proj1 (proj2 Hwf)) p Hp WithDcMI UnadjustedDoF s1 X Y Z Hwf ltac:(discriminate) Hi Hwt) as (r & st & Er & (_ & _ & Hj & _) & _ & _ & _ & Hd).
  destruct (Hd eq_refl) as (Hk & _ & Hm & _). change (jht_misses s1) with 0 in Hm. change (length (jht s1)) with O in Hm.
  set (s2 := with_dict (jht st, jht_counters st) (g_state (new_obj D p UnadjustedDoF))).
  assert (Hi2 : inv D WithDcMI UnadjustedDoF s2) by (split; [reflexivity|split; [apply dcache_nil|split; [exact Hj|discriminate]]]).
  destruct (run_test_ok D (proj1 Hwf) (proj1 (proj2 Hwf)) p Hp WithDcMI UnadjustedDoF s2 X Y Z Hwf ltac:(discriminate) Hi2 Hwt) as (r2 & st2 & Er2 & _ & _ & _ & _ & Hd2).
  destruct (Hd2 eq_refl) as (_ & Hr2 & Hm2 & _ & Hm0 & _). specialize (Hm0 Hk). change (jht_reads s2) with 0 in Hr2. change (jht_misses s2) with 0 in Hm0, Hm2. change (jht s2) with (jht st) in Hm2.
  cbn [run]. match goal with |- context [step ?w (Test 0 _)] => rewrite (step_dict w 0 X Y Z (new_obj D p UnadjustedDoF) 0 ([], Some (0, 0)) eq_refl eq_refl eq_refl) end.
  change (run_test _ _ _ _ _ X Y Z) with (run_test D p WithDcMI UnadjustedDoF s1 X Y Z). rewrite Er. cbv iota beta.
  match goal with |- context [step ?w (Test 1 _)] => rewrite (step_dict w 1 X Y Z (new_obj D p UnadjustedDoF) 0 (jht st, jht_counters st) eq_refl eq_refl eq_refl) end.
  change (run_test _ _ _ _ _ X Y Z) with (run_test D p WithDcMI UnadjustedDoF s2 X Y Z). rewrite Er2. cbv iota beta.
  match goal with |- context [step ?w (End 0 true)] => rewrite (step_end w 0 (with_state (new_obj D p UnadjustedDoF) st) 0 (jht st2, jht_counters st2) eq_refl eq_refl eq_refl) end. cbv iota beta.
  match goal with |- context [step ?w (End 1 true)] => rewrite (step_end w 1 (with_state (new_obj D p UnadjustedDoF) st2) 0 (jht st2, Some (jht_reads st, jht_misses st)) eq_refl eq_refl eq_refl) end. cbv iota beta.
  eexists _, _, (jht st2). split; [reflexivity|].
  assert (Hz : forall w x y, objs w = [Some x; Some y] -> g_part x = DictAt 0 -> g_part y = DictAt 0 -> misses_on 0 w = jht_misses (g_state x) + jht_misses (g_state y)).
  { intros w x y E1 E2 E3. unfold misses_on. rewrite E1. cbn [map]. rewrite E2, E3. cbn. lia. }
  match goal with |- context [misses_on 0 ?w] => rewrite (Hz w (with_state (new_obj D p UnadjustedDoF) st) (with_state (new_obj D p UnadjustedDoF) st2) eq_refl eq_refl eq_refl) end. cbn [with_state g_state].
  assert (Hpos : jht st <> []).
  { intros E. apply (Hk (X :: Y :: Z)); [left; reflexivity|discriminate|]. rewrite E. reflexivity. }
  split; [change (Some (jht st2, Some (jht_reads st2, jht_misses st2)) = Some (jht st2, Some (entropies_needed (X, Y, Z), 0))); rewrite Hr2, Hm0; reflexivity|]. split; [lia|]. destruct (jht st) as [|x l]; [congruence|]. cbn [length] in Hm. lia.
Qed.
Print Assumptions C66_counters_of_the_last.

(** ** Another dataset *)
(** all entropies known: the dataset of the object plays no role *)
Lemma known_G kind X Y Z h : all_known (h_jht h) X Y Z ->
  exists S h', h_jht h' = h_jht h /\ h_cache h' = h_cache h /\ forall D p N, G_from_entropies D p kind N X Y Z h = Ok ((2 * IZR N * S)%R, h').
Proof.
  intros Hk. assert (Hj : forall h0 vs, h_jht h0 = h_jht h -> In vs (test_sets X Y Z) -> exists H h', h_jht h' = h_jht h0 /\ h_cache h' = h_cache h0 /\ forall D p, joint_entropy D p kind vs h0 = Ok (H, h')).
  { intros h0 vs E Hin. destruct vs as [|x vs]; [exists 0%R, h0; auto|]. assert (Hn : assoc list_eqb (frozenset (x :: vs)) (h_jht h0) <> None) by (rewrite E; apply Hk; [exact Hin|discriminate]).
    destruct (assoc list_eqb (frozenset (x :: vs)) (h_jht h0)) as [H|] eqn:EH; [|congruence]. exists H. eexists. split; [|split; [|intros D p; unfold joint_entropy; rewrite EH; reflexivity]]; reflexivity. }
  destruct (Hj h (X :: Y :: Z) eq_refl) as (H1 & h1 & A1 & B1 & C1); [cbn; auto|]. destruct (Hj h1 (X :: Z) A1) as (H2 & h2 & A2 & B2 & C2); [cbn; auto|].
  destruct (Hj h2 (Y :: Z)) as (H3 & h3 & A3 & B3 & C3); [congruence|cbn; auto|]. destruct (Hj h3 Z) as (H4 & h4 & A4 & B4 & C4); [congruence|cbn; auto|].
  exists (H3 + H2 - H1 - H4)%R, h4. split; [congruence|]. split; [congruence|]. intros D p N. unfold G_from_entropies. rewrite C1. cbn [bind]. rewrite C2. cbn [bind]. rewrite C3. cbn [bind]. rewrite C4. reflexivity.
Qed.
(** a dictionary filled for one dataset and handed to an object for another (with other rows): the
    second object reports the first dataset's statistic, rescaled *)
Theorem C66_dictionary_of_another_dataset : forall D1 D2 p t, wf_for D1 WithDcMI -> wf_for D2 WithDcMI -> order_ok p -> wf_test D1 t -> wf_test D2 t ->
  exists os w o r, run empty_world (one_test_twice D1 D2 p UnadjustedDoF UnadjustedDoF t) = (os, w) /\ nth_error (objs w) 1 = Some (Some o) /\ results (g_state o) = [r] /\
    let '(X, Y, Z) := t in enough D2 p (unadjusted_dof D2 X Y Z) = true ->
      r_G r = (INR (length (rows D2)) / INR (length (rows D1)) * G_statistic D1 X Y Z)%R.
Proof.
  intros D1 D2 p [[X Y] Z] Hwf Hwf2 Hp Hwt Hwt2. unfold one_test_twice. rewrite three by discriminate. set (s1 := with_dict ([], Some (0, 0)) (g_state (new_obj D1 p UnadjustedDoF))).
  assert (Hi : inv D1 WithDcMI UnadjustedDoF s1) by (split; [reflexivity|split; [apply dcache_nil|split; [apply jht_nil|discriminate]]]).
  destruct (run_test_ok D1 (proj1 Hwf) (proj1 (proj2 Hwf)) p Hp WithDcMI UnadjustedDoF s1 X Y Z Hwf ltac:(discriminate) Hi Hwt) as (r & st & Er & (_ & _ & Hj & _) & _ & _ & _ & Hd).
  destruct (Hd eq_refl) as (Hk & _). set (s2 := with_dict (jht st, jht_counters st) (g_state (new_obj D2 p UnadjustedDoF))).
  destruct (known_G UnadjustedDoF X Y Z (hstate_of s2 (dof_cache s2)) Hk) as (S & h' & Ej & Ec & HG).
  assert (HS : (2 * IZR (Z.of_nat (length (rows D1))) * S)%R = G_statistic D1 X Y Z).
  { destruct (G_from_entropies_ok D1 (proj1 (proj2 Hwf)) p Hp UnadjustedDoF (hstate_of s2 (dof_cache s2)) X Y Z (conj Hj (dcache_nil D1)) (proj1 Hwt) (proj2 Hwt)) as (h1 & E1 & _). rewrite HG in E1. injection E1 as E1 _. exact E1. }
  assert (E2 : exists r2 st2, run_test D2 p WithDcMI UnadjustedDoF s2 X Y Z = Ok (r2, st2) /\ results st2 = [r2] /\
    (enough D2 p (unadjusted_dof D2 X Y Z) = true -> r_G r2 = (2 * IZR (Z.of_nat (length (rows D2))) * S)%R)).
  { unfold run_test. rewrite HG. cbn [bind calculate_DoF]. rewrite (unadjusted_ok D2 X Y Z (proj1 Hwf2) (proj2 Hwt2)). cbn [bind].
    unfold decide. change (sufficient_samples p (sample_size s2) (unadjusted_dof D2 X Y Z)) with (enough D2 p (unadjusted_dof D2 X Y Z)).
    destruct (enough D2 p (unadjusted_dof D2 X Y Z)); cbn [bind]; eexists _, _; (split; [reflexivity|]); (split; [reflexivity|]); [intros _; reflexivity|discriminate]. }
  destruct E2 as (r2 & st2 & Er2 & Elog & HGr). cbn [run].
  match goal with |- context [step ?w (Test 0 _)] => rewrite (step_dict w 0 X Y Z (new_obj D1 p UnadjustedDoF) 0 ([], Some (0, 0)) eq_refl eq_refl eq_refl) end.
  change (run_test _ _ _ _ _ X Y Z) with (run_test D1 p WithDcMI UnadjustedDoF s1 X Y Z). rewrite Er. cbv iota beta.
  match goal with |- context [step ?w (Test 1 _)] => rewrite (step_dict w 1 X Y Z (new_obj D2 p UnadjustedDoF) 0 (jht st, jht_counters st) eq_refl eq_refl eq_refl) end.
  change (run_test _ _ _ _ _ X Y Z) with (run_test D2 p WithDcMI UnadjustedDoF s2 X Y Z). rewrite Er2. cbv iota beta.
  eexists _, _, (with_state (new_obj D2 p UnadjustedDoF) st2), r2. split; [reflexivity|]. split; [reflexivity|]. split; [exact Elog|]. intros He. rewrite (HGr He), <- HS, <- !INR_IZR_INZ.
  field. apply not_0_INR. destruct (rows D1) eqn:E; [exfalso; apply (proj1 (proj2 Hwf)); exact E|discriminate].
Qed.
Print Assumptions C66_dictionary_of_another_dataset.
Lemma step_tree w i X Y Z o k c : nth_error (objs w) i = Some (Some o) -> g_part o = TreeAt k -> nth_error (trees w) k = Some c ->
  step w (Test i (X, Y, Z)) = match run_on_tree (tc_data c) (g_data o) (g_params o) (tc_dyn c) (g_kind o) (with_tree (tc_root c) (g_state o)) X Y Z with
    | Ok (r, st) => (set_object i (with_state o st) (set_tree k {| tc_data := tc_data c; tc_dyn := tc_dyn c; tc_root := tree_of st (tc_root c) |} w), Answered (outcome_of r)) | Err e => (w, Raised e) end.
Proof. intros H1 H2 H3. cbn [step]. rewrite H1, H2, H3. reflexivity. Qed.
(** a tree of another dataset and the unadjusted degrees of freedom: the statistic and the number
    of samples are the tree's, the degrees of freedom those of the object's dataset *)
Theorem C66_tree_of_another_dataset : forall Dt D p dyn t, wf_for Dt (WithADTree dyn) -> wf_for D Plain -> order_ok p -> wf_test Dt t -> wf_test D t ->
  exists v w o r, run empty_world [MakeTree Dt dyn; NewOnTree D p UnadjustedDoF 0; Test 0 t] = ([Done; Done; Answered v], w) /\ nth_error (objs w) 0 = Some (Some o) /\ results (g_state o) = [r] /\
    let '(X, Y, Z) := t in r_DoF r = unadjusted_dof D X Y Z /\
      (v = RaisesInsufficientSamples <-> enough Dt p (unadjusted_dof D X Y Z) = false) /\
      (enough Dt p (unadjusted_dof D X Y Z) = true -> r_G r = G_statistic Dt X Y Z /\ r_p r = chi2_cdf p (G_statistic Dt X Y Z) (unadjusted_dof D X Y Z)).
Proof.
  intros Dt D p dyn [[X Y] Z] Hwf Hwf2 Hp Hwt Hwt2. destruct (proj2 (proj2 Hwf)) as (NM & TH). destruct (build_tree_ok Dt (proj1 Hwf) dyn TH) as (t & Et & Hrt).
  destruct (start_on_tree Dt dyn UnadjustedDoF t Hwf Hrt) as (st & t' & Es & Ead & Hrt' & E1 & E2 & E3 & E4).
  destruct (ad_tables_ok Dt (proj1 Hwf) (proj1 (proj2 Hwf)) NM TH dyn UnadjustedDoF (dof_cache (with_tree t' st)) t' X Y Z Hrt' (proj1 Hwt) (proj2 Hwt)) as (CXY & CX & CY & PZ & c' & t2 & Etab & Ht2 & Hg & Hc' & Hk); [cbn [with_tree dof_cache]; rewrite E2; apply dcache_nil|].
  assert (Hr : exists r st2, run_on_tree Dt D p dyn UnadjustedDoF (with_tree t' st) X Y Z = Ok (r, st2) /\ results st2 = [r] /\ r_DoF r = unadjusted_dof D X Y Z /\
    (outcome_of r = RaisesInsufficientSamples <-> enough Dt p (unadjusted_dof D X Y Z) = false) /\
    (enough Dt p (unadjusted_dof D X Y Z) = true -> r_G r = G_statistic Dt X Y Z /\ r_p r = chi2_cdf p (G_statistic Dt X Y Z) (unadjusted_dof D X Y Z))).
  { unfold run_on_tree. cbn [with_tree ad_tree of_option bind]. rewrite Etab. cbn [bind calculate_DoF]. rewrite (unadjusted_ok D X Y Z (proj1 Hwf2) (proj2 Hwt2)). cbn [bind].
    change (sample_size (with_tree t' st)) with (sample_size st). rewrite E1, (good_G Dt (proj1 (proj2 Hwf)) _ _ _ _ _ _ _ Hg). unfold decide. change (sufficient_samples p (Z.of_nat (length (rows Dt))) (unadjusted_dof D X Y Z)) with (enough Dt p (unadjusted_dof D X Y Z)).
    destruct (enough Dt p (unadjusted_dof D X Y Z)); cbn [bind]; eexists _, _; (split; [reflexivity|]); cbn [add_result results]; change (results (with_tree t' st)) with (results st); rewrite E3; (split; [reflexivity|]); cbn; (split; [reflexivity|]).
    - split; [split; discriminate|auto].
    - split; [split; reflexivity|discriminate]. }
  destruct Hr as (r & st2 & Er & Elog & Hrest). 
  set (o0 := {| g_data := D; g_params := p; g_kind := UnadjustedDoF; g_part := TreeAt 0; g_state := st |}).
  set (w1 := {| trees := [{| tc_data := Dt; tc_dyn := dyn; tc_root := t |}]; dicts := []; objs := [] |}). set (w2 := {| trees := [{| tc_data := Dt; tc_dyn := dyn; tc_root := t' |}]; dicts := []; objs := [Some o0] |}).
  assert (S1 : step empty_world (MakeTree Dt dyn) = (w1, Done)) by (cbn [step]; rewrite Et; reflexivity).
  assert (S2 : step w1 (NewOnTree D p UnadjustedDoF 0) = (w2, Done)) by (cbn [step w1 trees nth_error tc_data tc_dyn tc_root]; rewrite Es; unfold tree_of; rewrite Ead; reflexivity).
  assert (S3 : step w2 (Test 0 (X, Y, Z)) = (set_object 0 (with_state o0 st2) (set_tree 0 {| tc_data := Dt; tc_dyn := dyn; tc_root := tree_of st2 t' |} w2), Answered (outcome_of r))).
  { rewrite (step_tree w2 0 X Y Z o0 0 {| tc_data := Dt; tc_dyn := dyn; tc_root := t' |} eq_refl eq_refl eq_refl). change (run_on_tree _ _ _ _ _ _ X Y Z) with (run_on_tree Dt D p dyn UnadjustedDoF (with_tree t' st) X Y Z). rewrite Er. reflexivity. }
  cbn [run]. rewrite S1. cbv iota beta. rewrite S2. cbv iota beta. rewrite S3. eexists _, _, _, r. split; [reflexivity|]. split; [reflexivity|]. split; [exact Elog|]. exact Hrest.
Qed.
Print Assumptions C66_tree_of_another_dataset.

(** ** A concrete case *)
Definition Dind : dataset := {| rows := [[0; 0]; [0; 1]; [1; 0]; [1; 1]]; ncols := 2; colvals := fun _ => Some [0; 1]; threshold := 0 |}.

Definition p_sh : params := {| chi2_cdf := fun g _ => g; significance := 1%R; criterion := Some (fun _ => true); set_order := nodup Nat.eq_dec |}.
Lemma p_sh_ok : order_ok p_sh.
Proof. intros l. split; [apply NoDup_nodup|intros x; apply nodup_In]. Qed.
Lemma two_columns rs : Forall (fun row => row = [0; 0] \/ row = [0; 1] \/ row = [1; 0] \/ row = [1; 1]) rs -> rs <> [] ->
  forall im, wf_for {| rows := rs; ncols := 2; colvals := fun _ => Some [0; 1]; threshold := 0 |} im.
Proof.
  intros Hr Hne im. split; [|split; [exact Hne|]].
  - constructor; cbn.
    + eapply Forall_impl; [|exact Hr]. intros row [-> | [-> | [-> | ->]]]; reflexivity.
    + intros c Hc. exists [0; 1]. split; [reflexivity|]. split; [repeat constructor; cbn; intuition discriminate|]. split; [discriminate|].
      intros row x Hin Hx. rewrite Forall_forall in Hr. assert (Hcase : c = 0%nat \/ c = 1%nat) by lia.
      destruct (Hr row Hin) as [-> | [-> | [-> | ->]]], Hcase as [-> | ->]; cbn in Hx; injection Hx as <-; cbn; auto.
  - destruct im; auto. split; [|unfold threshold_ok; cbn; lia]. intros c vs Hc E. cbn in E. injection E as <-. cbn. intuition discriminate.
Qed.
Lemma Dxy_wf im : wf_for Dxy im.
Proof. apply two_columns; [repeat (apply Forall_cons; [auto 6|]); apply Forall_nil|discriminate]. Qed.
Lemma Dind_wf im : wf_for Dind im.
Proof. apply two_columns; [repeat (apply Forall_cons; [auto 6|]); apply Forall_nil|discriminate]. Qed.
Lemma t01_wf D : ncols D = 2%nat -> wf_test D (0%nat, 1%nat, []).
Proof. intros E. split; [repeat constructor; cbn; intuition discriminate|]. rewrite E. intros c [<-|[<-|[]]]; lia. Qed.
(** two objects on one tree, two on one dictionary (one of them another object's, handed on after
    it was ended), one on its own, all interleaved *)
Definition acts_ex : list action :=
  [MakeTree Dind true; NewOnTree Dind p_sh UnadjustedDoF 0; NewOnTree Dxy p_sh StructuralDoF 0;
   NewDcMI Dind p_sh UnadjustedDoF None; NewDcMI Dxy p_sh CachedStructuralDoF None;
   Test 0 (0%nat, 1%nat, []); Test 3 (0%nat, 1%nat, []); Test 2 (1%nat, 0%nat, []); Test 1 (0%nat, 1%nat, []); End 2 true;
   NewDcMI Dind p_sh UnadjustedDoF (Some 0%nat); Test 4 (0%nat, 1%nat, []); Test 2 (0%nat, 1%nat, []); Test 0 (0%nat, 1%nat, [])].
Lemma by_steps acts : forall before c c', program before c -> (fix ok (c : ctx) (l : list action) (c' : ctx) : Prop :=
  match l with [] => c' = c | a :: l' => exists c1, allowed c a c1 /\ ok c1 l' c' end) c acts c' -> program (before ++ acts) c'.
Proof.
  induction acts as [|a acts IH]; intros before c c' Hb H; [subst; rewrite app_nil_r; exact Hb|]. destruct H as (c1 & Ha & H).
  replace (before ++ a :: acts) with ((before ++ [a]) ++ acts) by (rewrite <- app_assoc; reflexivity). apply (IH _ c1); [eapply p_snoc; eassumption|exact H].
Qed.
Example C66_nonvacuous : exists c, program acts_ex c /\ length (c_objs c) = 5%nat /\ tests_of 2 acts_ex = [(1%nat, 0%nat, []); (0%nat, 1%nat, [])].
Proof.
  assert (T : forall D, ncols D = 2%nat -> wf_test D (0%nat, 1%nat, []) /\ wf_test D (1%nat, 0%nat, [])).
  { intros D E. split; [apply t01_wf; exact E|]. split; [repeat constructor; cbn; intuition discriminate|]. rewrite E. intros c [<-|[<-|[]]]; lia. }
  destruct (T Dind eq_refl) as (T1 & T2). destruct (T Dxy eq_refl) as (T3 & _).
  eexists. split; [apply (by_steps acts_ex [] empty_ctx _ p_nil)|].
  - unfold acts_ex.
    eexists. split; [apply a_tree; apply Dind_wf|]. cbn [c_trees c_dicts c_objs empty_ctx app length].
    eexists. split; [eapply a_on_tree; [reflexivity|apply p_sh_ok|reflexivity]|]. cbn [c_trees c_dicts c_objs empty_ctx app length].
    eexists. split; [eapply a_on_tree; [reflexivity|apply p_sh_ok|discriminate]|]. cbn [c_trees c_dicts c_objs empty_ctx app length].
    eexists. split; [apply a_own; [apply Dind_wf|discriminate|apply p_sh_ok]|]. cbn [c_trees c_dicts c_objs empty_ctx app length].
    eexists. split; [apply a_own; [apply Dxy_wf|discriminate|apply p_sh_ok]|]. cbn [c_trees c_dicts c_objs empty_ctx app length].
    eexists. split; [eapply a_test; [reflexivity|exact T1]|]. eexists. split; [eapply a_test; [reflexivity|exact T3]|].
    eexists. split; [eapply a_test; [reflexivity|exact T2]|]. eexists. split; [eapply a_test; [reflexivity|exact T1]|].
    eexists. split; [eapply (a_save_dict _ 2 _ 0 Dind UnadjustedDoF false []); reflexivity|]. cbn [c_trees c_dicts c_objs empty_ctx app length].
    eexists. split; [eapply a_share; [reflexivity|apply p_sh_ok]|]. cbn [c_trees c_dicts c_objs empty_ctx app length].
    eexists. split; [eapply a_test; [reflexivity|exact T1]|]. eexists. split; [eapply a_test; [reflexivity|exact T1]|]. eexists. split; [eapply a_test; [reflexivity|exact T1]|]. reflexivity.
  - split; reflexivity.
Qed.
(** the statistics of the two datasets: sharing a dictionary between them would report 8 ln 2
    (C66_dictionary_of_another_dataset) where 0 is right, and call the variables dependent *)
Example C66_other_dataset_example : (INR (length (rows Dind)) / INR (length (rows Dxy)) * G_statistic Dxy 0 1 [] = 8 * ln 2)%R /\ G_statistic Dind 0 1 [] = 0%R.
Proof.
  split.
  - rewrite C13_nonzero. cbn [Dind Dxy rows length]. replace (INR 4) with 4%R by (simpl; lra). replace (INR 2) with 2%R by (simpl; lra). field.
  - unfold G_statistic, cmi, pr3, pr2, pr1, pr. cbn -[ln INR Rmult Rplus Rinv]. replace (INR 4) with 4%R by (simpl; lra). rewrite !Rplus_0_r.
    repeat match goal with |- context [ln ?e] => lazymatch e with 1%R => fail | _ => replace e with 1%R by (field; lra) end end. rewrite ln_1. lra.
Qed.
