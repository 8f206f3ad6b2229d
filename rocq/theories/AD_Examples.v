(** A concrete dataset that meets the hypotheses of the AD-tree theorems, and counterexamples.
    Tests and witnesses, not proofs of unbounded claims. *)
From Coq Require Import Reals.
From Verif Require Import Base AD_Model AD_Query_Model AD_Spec AD_Proofs AD_More_Proofs AD_Tables_Proofs.
Open Scope Z_scope.

Definition Dex (thr : Z) : dataset :=
  {| rows := [[0;1;5]; [0;1;6]; [1;0;5]; [2;1;5]; [0;0;6]; [2;1;6]; [0;1;5]];
     ncols := 3;
     colvals := fun c => match c with 0%nat => Some [0;1;2] | 1%nat => Some [0;1] | 2%nat => Some [5;6;7] | _ => None end;
     threshold := thr |}.

Lemma Dex_wf thr : wf_dataset (Dex thr).
Proof.
  constructor.
  - simpl. repeat constructor.
  - intros c Hc. simpl in Hc.
    assert (Hcase : c = 0%nat \/ c = 1%nat \/ c = 2%nat) by lia.
    destruct Hcase as [-> | [-> | ->]]; simpl; eexists; (split; [reflexivity|]);
      (split; [repeat constructor; simpl; intuition discriminate|]); (split; [discriminate|]);
      intros row x Hrow Hx; simpl in Hrow;
      repeat (destruct Hrow as [<-|Hrow]; [simpl in Hx; inversion Hx; subst; simpl; tauto|]); contradiction.
Qed.
Lemma Dex_no_minus_one thr : no_minus_one (Dex thr).
Proof.
  intros c vs Hc E. simpl in Hc. assert (Hcase : c = 0%nat \/ c = 1%nat \/ c = 2%nat) by lia.
  destruct Hcase as [-> | [-> | ->]]; simpl in E; inversion E; subst; simpl; intuition discriminate.
Qed.
Lemma Dex_threshold : threshold_ok (Dex 3).
Proof. unfold threshold_ok; simpl; lia. Qed.

Definition qex : query := [(2%nat, 5); (0%nat, 0)].
Lemma qex_wf : wf_query (Dex 3) qex.
Proof.
  split; [repeat constructor; simpl; intuition discriminate|].
  intros c v [E|[E|[]]]; inversion E; subst; simpl; lia.
Qed.
(** the answer is 2 and comes from a most-common-value reconstruction *)
Example qex_answer : count_matching (Dex 3) qex = 2 /\
  exists t, build_tree (Dex 3) false = Ok t /\ query_count (Dex 3) false qex t = Ok (2, t).
Proof. split; [reflexivity|]. eexists; split; vm_compute; reflexivity. Qed.

Definition history_ex : list call := [CCount qex; CCounts [2;0]%nat; CReload; CCount [(1%nat, 0)]; CCounts [1;0]%nat; CCount qex].
Ltac nodup := repeat (apply NoDup_cons; [simpl; intuition discriminate|]); apply NoDup_nil.
Lemma history_ex_wf : Forall (wf_call (Dex 3)) history_ex.
Proof.
  unfold history_ex. repeat apply Forall_cons; try apply Forall_nil; unfold wf_call;
    try exact qex_wf; try exact I.
  - split; [discriminate|]. split; [nodup|]. intros c [<-|[<-|[]]]; simpl; lia.
  - split; [simpl; nodup|]. intros c v [E|[]]; inversion E; simpl; lia.
  - split; [discriminate|]. split; [nodup|]. intros c [<-|[<-|[]]]; simpl; lia.
Qed.

(** a column that contains -1 *)
Definition Dm1 : dataset :=
  {| rows := [[-1; 5]; [2; 5]; [2;6]]; ncols := 2;
     colvals := fun c => match c with 0%nat => Some [-1;2] | 1%nat => Some [5;6] | _ => None end; threshold := 0 |}.
Lemma Dm1_wf : wf_dataset Dm1.
Proof.
  constructor.
  - simpl. repeat constructor.
  - intros c Hc. simpl in Hc.
    assert (Hcase : c = 0%nat \/ c = 1%nat) by lia.
    destruct Hcase as [-> | ->]; simpl; eexists; (split; [reflexivity|]);
      (split; [repeat constructor; simpl; intuition discriminate|]); (split; [discriminate|]);
      intros row x Hrow Hx; simpl in Hrow;
      repeat (destruct Hrow as [<-|Hrow]; [simpl in Hx; inversion Hx; subst; simpl; tauto|]); contradiction.
Qed.
Lemma Dm1_bad : exists t d t', build_tree Dm1 false = Ok t /\ make_counts Dm1 false [0;1]%nat t = Ok (d, t') /\
   In ([5], Some 1) d.
Proof. eexists _, _, _. split; [vm_compute; reflexivity|]. split; [vm_compute; reflexivity|]. left; reflexivity. Qed.

(** contingency trees *)
Definition ct1 : ctnode := CT (-1) (-1) None (Some [(0, CT 0 0 (Some 4) None); (1, CT 0 1 (Some 2) None)]).
Definition ct2 : ctnode := CT (-1) (-1) None (Some [(1, CT 0 1 (Some 1) None); (2, CT 0 2 (Some 3) None)]).
Lemma ct1_ok : ct_ok 1 ct1 /\ ct_full ct1.
Proof.
  split; [constructor; [repeat constructor; simpl; intuition discriminate|repeat constructor]|].
  constructor; [intros d E; inversion E; discriminate|]. intros d x c E Hin; inversion E; subst.
  repeat (destruct Hin as [Ei|Hin]; [inversion Ei; subst; constructor; discriminate|]); contradiction.
Qed.
Lemma ct2_ok : ct_ok 1 ct2 /\ ct_full ct2.
Proof.
  split; [constructor; [repeat constructor; simpl; intuition discriminate|repeat constructor]|].
  constructor; [intros d E; inversion E; discriminate|]. intros d x c E Hin; inversion E; subst.
  repeat (destruct Hin as [Ei|Hin]; [inversion Ei; subst; constructor; discriminate|]); contradiction.
Qed.

(** ** final forms of the statements *)
Lemma static_exact D : wf_dataset D -> threshold_ok D ->
  exists t, build_tree D false = Ok t /\
    forall q, wf_query D q -> query_count D false q t = Ok (count_matching D q, t).
Proof.
  intros WF Hthr. destruct (build_tree_ok D WF false Hthr) as (t & Et & Hok). exists t. split; [assumption|].
  intros q Hq. destruct (query_count_ok D WF false t q Hok Hq) as (t' & E & _).
  rewrite E. f_equal. f_equal. unfold query_count in E. apply qc_static_same in E. congruence.
Qed.

Lemma history_exact D dyn : wf_dataset D -> no_minus_one D -> threshold_ok D ->
  exists t, build_tree D dyn = Ok t /\
    forall calls, Forall (wf_call D) calls ->
      exists answers t', do_calls D dyn calls t = Ok (answers, t') /\ Forall2 (answer_exact D) calls answers.
Proof.
  intros WF NM Hthr. destruct (build_tree_ok D WF dyn Hthr) as (t & Et & Hok). exists t. split; [assumption|].
  intros cs Hcs. destruct (do_calls_ok D dyn cs WF NM Hthr Hcs t Hok) as (l & t' & E & H & _). eauto.
Qed.
Lemma history_counts_exact D dyn : wf_dataset D -> threshold_ok D ->
  exists t, build_tree D dyn = Ok t /\
    forall calls, Forall (fun c => wf_call D c /\ forall vars, c <> CCounts vars) calls ->
      exists answers t', do_calls D dyn calls t = Ok (answers, t') /\ Forall2 (answer_exact D) calls answers.
Proof.
  intros WF Hthr. destruct (build_tree_ok D WF dyn Hthr) as (t & Et & Hok). exists t. split; [assumption|].
  intros cs Hcs. destruct (do_calls_counts_ok D dyn cs WF Hthr) with (t := t) as (l & t' & E & H & _); [|assumption|eauto].
  eapply Forall_impl; [|exact Hcs]. intros c (H1 & H2). split; [assumption|]. destruct c; simpl; auto. apply (H2 vars eq_refl).
Qed.

(** the answers after an arbitrary history *)
Lemma pmf_exact D dyn : wf_dataset D -> no_minus_one D -> threshold_ok D -> rows D <> [] ->
  exists t, build_tree D dyn = Ok t /\
    forall calls answers t', Forall (wf_call D) calls -> do_calls D dyn calls t = Ok (answers, t') ->
    forall vars, vars <> [] -> NoDup vars -> (forall c, In c vars -> (c < ncols D)%nat) ->
    exists pmf t'' cols, make_pmf D dyn vars t' = Ok (pmf, t'') /\
      Permutation vars cols /\ StronglySorted lt cols /\
      NoDup (map fst pmf) /\
      (forall key p, In (key, p) pmf -> length key = length vars /\ p = empirical D cols key) /\
      (forall key, length key = length vars -> ~ In key (map fst pmf) -> empirical D cols key = 0%R) /\
      rsum (map snd pmf) = 1%R.
Proof.
  intros WF NM Hthr Hne. destruct (build_tree_ok D WF dyn Hthr) as (t & Et & Hok). exists t. split; [assumption|].
  intros cs ans t' Hcs E vars H1 H2 H3.
  destruct (do_calls_ok D dyn cs WF NM Hthr Hcs t Hok) as (l & t1 & E1 & _ & Hok1). rewrite E in E1. inversion E1; subst.
  destruct (make_pmf_ok D dyn vars t1 WF NM Hthr Hne Hok1 H1 H2 H3) as (pmf & t2 & E2 & _ & A1 & A2 & A3 & A4).
  exists pmf, t2, (sort_nat vars). split; [assumption|]. split; [apply sort_perm|]. split; [apply sort_strict; assumption|].
  repeat (split; [assumption|]). assumption.
Qed.

Lemma prob_exact D dyn : wf_dataset D -> threshold_ok D ->
  exists t, build_tree D dyn = Ok t /\
    forall values given, wf_query D values -> wf_query D given -> consistent given values ->
    let both := Z.of_nat (length (filter (fun row => row_agrees given row && row_agrees values row)%bool (rows D))) in
    let cond := count_matching D given in
    (cond <> 0 -> exists t', query_prob D dyn values given t = Ok ((IZR both / IZR cond)%R, t') /\ (0 <= IZR both / IZR cond <= 1)%R) /\
    (cond = 0 -> query_prob D dyn values given t = Err ZeroDivisionError).
Proof.
  intros WF Hthr. destruct (build_tree_ok D WF dyn Hthr) as (t & Et & Hok). exists t. split; [assumption|].
  intros values given Hv Hg Hc. destruct (query_prob_ok D dyn t values given WF Hok Hv Hg Hc) as (H1 & H2). split; [|assumption].
  intros Hne. destruct (H1 Hne) as (t' & E & _ & Hb). eauto.
Qed.

Lemma prob_history D dyn : wf_dataset D -> no_minus_one D -> threshold_ok D ->
  exists t, build_tree D dyn = Ok t /\
    forall calls answers t', Forall (wf_call D) calls -> do_calls D dyn calls t = Ok (answers, t') ->
    forall values given, wf_query D values -> wf_query D given -> consistent given values ->
    let both := Z.of_nat (length (filter (fun row => row_agrees given row && row_agrees values row)%bool (rows D))) in
    let cond := count_matching D given in
    (cond <> 0 -> exists t'', query_prob D dyn values given t' = Ok ((IZR both / IZR cond)%R, t'') /\ (0 <= IZR both / IZR cond <= 1)%R) /\
    (cond = 0 -> query_prob D dyn values given t' = Err ZeroDivisionError).
Proof.
  intros WF NM Hthr. destruct (build_tree_ok D WF dyn Hthr) as (t & Et & Hok). exists t. split; [assumption|].
  intros cs ans t' Hcs E values given Hv Hg Hc.
  destruct (do_calls_ok D dyn cs WF NM Hthr Hcs t Hok) as (l & t1 & E1 & _ & Hok1). rewrite E in E1. inversion E1; subst.
  destruct (query_prob_ok D dyn t1 values given WF Hok1 Hv Hg Hc) as (H1 & H2). split; [|assumption].
  intros Hne. destruct (H1 Hne) as (t' & E' & _ & Hb). eauto.
Qed.
Lemma row_agrees_app q1 q2 row : row_agrees (q1 ++ q2) row = (row_agrees q1 row && row_agrees q2 row)%bool.
Proof. apply forallb_app. Qed.
Lemma consistent_app (q1 q2 : query) : NoDup (map fst (q1 ++ q2)) -> consistent q1 q2 /\ consistent q2 q1.
Proof.
  intros H. assert (Hd : forall c v w, In (c, v) q1 -> In (c, w) q2 -> False).
  { intros c v w H1 H2. rewrite map_app in H. apply (in_map fst) in H1, H2. cbn [fst] in *. revert H H1 H2. generalize (map fst q1), (map fst q2). clear.
    induction l as [|x l IH]; intros l2 H H1 H2; [destruct H1|]. cbn [app] in H. inversion H as [|? ? Hn H']; subst. destruct H1 as [-> |H1]; [apply Hn, in_or_app; right; assumption|]. eapply IH; eassumption. }
  split; intros c v w H1 H2; exfalso; eapply Hd; eassumption.
Qed.
Lemma wf_query_app D (q1 q2 : query) : wf_query D (q1 ++ q2) -> wf_query D q1 /\ wf_query D q2.
Proof.
  intros (H1 & H2). rewrite map_app in H1. split; (split; [|intros c v H; apply (H2 c v), in_or_app; auto]).
  - revert H1. generalize (map fst q1), (map fst q2). induction l as [|x l IH]; intros l2 H; constructor; inversion H; subst; [intros Hi; apply H3, in_or_app; auto|eauto].
  - revert H1. generalize (map fst q1), (map fst q2). induction l as [|x l IH]; intros l2 H; [assumption|inversion H; subst; eauto].
Qed.
Lemma prob_chain D dyn : wf_dataset D -> no_minus_one D -> threshold_ok D ->
  exists t, build_tree D dyn = Ok t /\
    forall calls answers t', Forall (wf_call D) calls -> do_calls D dyn calls t = Ok (answers, t') ->
    forall a b g, wf_query D (a ++ b ++ g) -> count_matching D (b ++ g) <> 0 ->
    exists p1 p2 p3 t1 t2 t3, query_prob D dyn (a ++ b) g t' = Ok (p1, t1) /\ query_prob D dyn a (b ++ g) t' = Ok (p2, t2) /\
      query_prob D dyn b g t' = Ok (p3, t3) /\ p1 = (p2 * p3)%R.
Proof.
  intros WF NM Hthr. destruct (prob_history D dyn WF NM Hthr) as (t & Et & H). exists t. split; [assumption|].
  intros cs ans t' Hcs E a b g Hq Hc. specialize (H cs ans t' Hcs E).
  assert (Hq' : wf_query D ((a ++ b) ++ g)) by (rewrite <- app_assoc; assumption).
  destruct (wf_query_app _ _ _ Hq') as (Hab & Hg). destruct (wf_query_app _ _ _ Hq) as (Ha & Hbg). destruct (wf_query_app _ _ _ Hbg) as (Hb & _).
  pose proof (proj2 (consistent_app _ _ (proj1 Hq'))) as C1. pose proof (proj2 (consistent_app _ _ (proj1 Hq))) as C2. pose proof (proj2 (consistent_app _ _ (proj1 Hbg))) as C3.
  assert (Hcg : count_matching D g <> 0).
  { intros Z0. apply Hc. unfold count_matching in *. assert (Zl : length (filter (row_agrees g) (rows D)) = O) by lia. apply length_zero_iff_nil in Zl.
    assert (Zf : filter (row_agrees (b ++ g)) (rows D) = []); [|rewrite Zf; reflexivity].
    revert Zl. generalize (rows D). induction l as [|r l IH]; cbn [filter]; [reflexivity|]. rewrite row_agrees_app. destruct (row_agrees g r); [discriminate|]. rewrite Bool.andb_false_r. assumption. }
  destruct (proj1 (H (a ++ b) g Hab Hg C1) Hcg) as (t1 & E1 & _).
  destruct (proj1 (H a (b ++ g) Ha Hbg C2) Hc) as (t2 & E2 & _).
  destruct (proj1 (H b g Hb Hg C3) Hcg) as (t3 & E3 & _).
  eexists _, _, _, t1, t2, t3. split; [exact E1|]. split; [exact E2|]. split; [exact E3|].
  assert (R1 : filter (fun row => row_agrees g row && row_agrees (a ++ b) row)%bool (rows D) = filter (fun row => row_agrees (b ++ g) row && row_agrees a row)%bool (rows D)).
  { apply filter_ext. intros r. rewrite !row_agrees_app. destruct (row_agrees a r), (row_agrees b r), (row_agrees g r); reflexivity. }
  assert (R2 : filter (fun row => row_agrees g row && row_agrees b row)%bool (rows D) = filter (row_agrees (b ++ g)) (rows D)).
  { apply filter_ext. intros r. rewrite !row_agrees_app. apply Bool.andb_comm. }
  rewrite R1, R2. fold (count_matching D (b ++ g)). field. split; apply not_0_IZR; assumption.
Qed.

Lemma subtract_exact_lemma L t o : ct_ok L t -> ct_ok L o ->
  (forall ks, length ks = L -> look t ks = None -> look0 o ks = 0) ->
  exists t', ct_subtract_in_place t o = Ok t' /\ ct_ok L t' /\
    forall ks, length ks = L -> look0 t' ks = look0 t ks - look0 o ks.
Proof.
  intros Ht Ho H. destruct (AD_CT_Proofs.combine_ok Z.sub L t o Ht Ho) as (t' & E & Hok & _ & Hl).
  exists t'. split; [assumption|]. split; [assumption|]. intros ks Hks. unfold look0. rewrite (Hl ks Hks).
  destruct (look t ks) eqn:E1.
  - destruct (look o ks); lia.
  - specialize (H ks Hks E1). unfold look0 in H. destruct (look o ks); lia.
Qed.

Lemma four_operations L t o : ct_ok L t -> ct_ok L o ->
  (exists t', ct_sum_in_place t o = Ok t' /\ ct_ok L t' /\ ct_value t' = ct_value t /\
     forall ks, length ks = L -> (look t' ks <> None <-> look t ks <> None) /\ (look t ks <> None -> look0 t' ks = look0 t ks + look0 o ks)) /\
  (exists t', ct_subtract_in_place t o = Ok t' /\ ct_ok L t' /\ ct_value t' = ct_value t /\
     forall ks, length ks = L -> (look t' ks <> None <-> look t ks <> None) /\ (look t ks <> None -> look0 t' ks = look0 t ks - look0 o ks)) /\
  (ct_full t ->
   (exists t', ct_sum t o = Ok t' /\ ct_ok L t' /\ ct_value t' = ct_value t /\
      forall ks, length ks = L -> (look t' ks <> None <-> look t ks <> None) /\ (look t ks <> None -> look0 t' ks = look0 t ks + look0 o ks)) /\
   (exists t', ct_subtract t o = Ok t' /\ ct_ok L t' /\ ct_value t' = ct_value t /\
      forall ks, length ks = L -> (look t' ks <> None <-> look t ks <> None) /\ (look t ks <> None -> look0 t' ks = look0 t ks - look0 o ks))).
Proof.
  intros Ht Ho. split; [|split; [|intros Hf; split]].
  - destruct (AD_CT_Proofs.combine_ok Z.add L t o Ht Ho) as (t' & E & Hok & Hv & Hl). exists t'. repeat (split; [assumption|]).
    intros ks Hks. specialize (Hl ks Hks). unfold look0. rewrite Hl. destruct (look t ks), (look o ks); split; try (split; congruence); intros; try congruence; lia.
  - destruct (AD_CT_Proofs.combine_ok Z.sub L t o Ht Ho) as (t' & E & Hok & Hv & Hl). exists t'. repeat (split; [assumption|]).
    intros ks Hks. specialize (Hl ks Hks). unfold look0. rewrite Hl. destruct (look t ks), (look o ks); split; try (split; congruence); intros; try congruence; lia.
  - destruct (combine_new_ok Z.add L t o Ht Ho Hf) as (t' & E & Hok & Hv & _ & Hl). exists t'. repeat (split; [assumption|]).
    intros ks Hks. specialize (Hl ks Hks). unfold look0. rewrite Hl. destruct (look t ks), (look o ks); split; try (split; congruence); intros; try congruence; lia.
  - destruct (combine_new_ok Z.sub L t o Ht Ho Hf) as (t' & E & Hok & Hv & _ & Hl). exists t'. repeat (split; [assumption|]).
    intros ks Hks. specialize (Hl ks Hks). unfold look0. rewrite Hl. destruct (look t ks), (look o ks); split; try (split; congruence); intros; try congruence; lia.
Qed.

Lemma static_pickle_no_dataset D D' : wf_dataset D -> threshold D <= 0 ->
  exists t, build_tree D false = Ok t /\
   forall q, wf_query D q -> exists t', query_count D' false q (pickle_roundtrip false t) = Ok (count_matching D q, t').
Proof.
  intros WF Hthr. assert (Hto : threshold_ok D) by (unfold threshold_ok; lia).
  destruct (build_tree_ok D WF false Hto) as (t & Et & Hok). exists t. split; [assumption|].
  intros q Hq. simpl. rewrite (no_dataset_needed D D' t q Hthr Et).
  destruct Hok as (H1 & H2 & H3). destruct (pickle_value t) as (B1 & B2 & _ & _).
  destruct (query_count_ok D WF false (pickle_static t) q) as (t' & E & _).
  - split; [apply pickle_ok; assumption|]. split; congruence.
  - assumption.
  - eauto.
Qed.
