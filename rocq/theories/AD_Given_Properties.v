(** C05, without the assumption that the two dictionaries agree: what query(values, given) answers if
    some column is given a value and asked for another. *)
From Coq Require Import Reals Lra.
From Verif Require Import Base AD_Model AD_Query_Model AD_Spec AD_Proofs AD_More_Proofs AD_Tables_Proofs AD_Examples.
Open Scope Z_scope.

(** the rows that show [values], and show [given] in the columns that [values] does not mention *)
Definition counted (values given : query) (row : list Z) : Prop :=
  (forall c v, In (c, v) values -> nth_error row c = Some v) /\
  (forall c v, In (c, v) given -> (forall w, ~ In (c, w) values) -> nth_error row c = Some v).
Definition number_of (P : list Z -> Prop) (rs : list (list Z)) (n : Z) : Prop :=
  exists l, NoDup l /\ (forall i, In i l <-> (exists row, nth_error rs i = Some row /\ P row)) /\ n = Z.of_nat (length l).

Lemma assoc_set_in c v (d : query) c' v' : NoDup (map fst d) ->
  (In (c', v') (assoc_set Nat.eqb c v d) <-> (c' = c /\ v' = v) \/ (c' <> c /\ In (c', v') d)).
Proof.
  induction d as [|[k w] d IH]; cbn [assoc_set]; intros HN.
  - cbn [In]. split; [intros [E|[]]; injection E as -> ->; auto|intros [[-> ->]|[_ []]]; auto].
  - cbn [map fst] in HN. inversion HN as [|? ? Hn HN']; subst. destruct (Nat.eqb_spec c k) as [-> |N]; cbn [In].
    + split.
      * intros [E|H]; [injection E as -> ->; auto|]. right. split; [intros ->; apply Hn; apply (in_map fst) in H; exact H|auto].
      * intros [[-> ->]|[N [E|H]]]; [auto|congruence|auto].
    + rewrite (IH HN'). split.
      * intros [E|[[-> ->]|[N' H]]]; [injection E as -> ->; right; auto|auto|auto].
      * intros [[-> ->]|[N' [E|H]]]; auto.
Qed.
Lemma dict_update_in (d2 : query) : forall d1 : query, NoDup (map fst d1) -> NoDup (map fst d2) -> forall c v,
  In (c, v) (dict_update d1 d2) <-> In (c, v) d2 \/ (In (c, v) d1 /\ forall w, ~ In (c, w) d2).
Proof.
  unfold dict_update. induction d2 as [|[k w] d2 IH]; intros d1 H1 H2 c v; cbn [fold_left].
  - cbn [In]. split; [intros H; right; split; [exact H|intros w []]|intros [[]|[H _]]; exact H].
  - cbn [map fst snd] in *. inversion H2 as [|? ? Hn H2']; subst. rewrite IH; [|apply assoc_set_nat_NoDup; exact H1|exact H2'].
    rewrite (assoc_set_in k w d1 c v H1). cbn [In]. split.
    + intros [H|[[[-> ->]|[N H]] Hw]]; [auto|auto|]. right. split; [exact H|]. intros w' [E|E]; [congruence|exact (Hw w' E)].
    + intros [[E|H]|[H Hw]].
      * injection E as -> ->. right. split; [auto|]. intros w' Hw'. apply Hn. apply (in_map fst) in Hw'. exact Hw'.
      * auto.
      * right. split; [right; split; [intros ->; exact (Hw w (or_introl eq_refl))|exact H]|intros w' Hw'; exact (Hw w' (or_intror Hw'))].
Qed.
Lemma number_filter (P : list Z -> Prop) f rs : (forall row, f row = true <-> P row) -> number_of P rs (Z.of_nat (length (filter f rs))).
Proof.
  intros H. exists (filter (fun i => match nth_error rs i with Some row => f row | None => false end) (seq 0 (length rs))).
  split; [apply NoDup_filter, seq_NoDup|]. split.
  - intros i. rewrite filter_In, in_seq. split.
    + intros [_ E]. destruct (nth_error rs i) as [row|]; [|discriminate]. exists row. split; [reflexivity|apply H; exact E].
    + intros (row & E & HP). rewrite E. split; [|apply H; exact HP]. assert (nth_error rs i <> None) by congruence. apply nth_error_Some in H0. lia.
  - f_equal. assert (G : forall l k, length (filter f l) = length (filter (fun i => match nth_error l (i - k) with Some row => f row | None => false end) (seq k (length l)))).
    { clear. induction l as [|row l IH]; intros k; [reflexivity|]. cbn [filter length seq]. rewrite Nat.sub_diag. cbn [nth_error].
      assert (E : filter (fun i => match nth_error (row :: l) (i - k) with Some r => f r | None => false end) (seq (S k) (length l)) =
                  filter (fun i => match nth_error l (i - S k) with Some r => f r | None => false end) (seq (S k) (length l))).
      { apply filter_ext_in. intros i Hi. apply in_seq in Hi. replace (i - k)%nat with (S (i - S k)) by lia. reflexivity. }
      destruct (f row); cbn [length]; rewrite E, (IH (S k)); reflexivity. }
    rewrite (G rs 0%nat). f_equal. apply filter_ext. intros i. rewrite Nat.sub_0_r. reflexivity.
Qed.

(** The values asked for take the place of given ones: the answer is the number of rows that show them (and
    the rest of [given]) divided by the number of rows that show [given] *)
Theorem C05_values_override_given : forall D dyn, wf_dataset D -> no_minus_one D -> threshold_ok D ->
  exists t, build_tree D dyn = Ok t /\
    forall calls answers t', Forall (wf_call D) calls -> do_calls D dyn calls t = Ok (answers, t') ->
    forall values given, wf_query D values -> wf_query D given ->
    exists used, number_of (counted values given) (rows D) used /\
    (count_matching D given <> 0 -> exists t'', query_prob D dyn values given t' = Ok ((IZR used / IZR (count_matching D given))%R, t'')) /\
    (count_matching D given = 0 -> query_prob D dyn values given t' = Err ZeroDivisionError).
Proof.
  intros D dyn WF NM Hthr. destruct (build_tree_ok D WF dyn Hthr) as (t & Et & Hok). exists t. split; [assumption|].
  intros cs ans t' Hcs E values given Hv Hg.
  destruct (do_calls_ok D dyn cs WF NM Hthr Hcs t Hok) as (l & t1 & E1 & _ & Hok1). rewrite E in E1. inversion E1; subst l t1. clear E1.
  assert (Hnil : wf_query D []) by (split; [constructor|intros c v []]).
  set (q := dict_update (dict_update [] given) values).
  assert (Hq : wf_query D q) by (apply dict_update_wf; [apply dict_update_wf; assumption|assumption]).
  assert (Hin : forall c v, In (c, v) q <-> In (c, v) values \/ (In (c, v) given /\ forall w, ~ In (c, w) values)).
  { intros c v. unfold q. rewrite dict_update_in; [|apply (dict_update_wf D [] given Hnil Hg)|apply Hv].
    assert (Hg' : In (c, v) (dict_update [] given) <-> In (c, v) given).
    { rewrite dict_update_in; [|constructor|apply Hg]. split; [intros [H|[[] _]]; exact H|auto]. }
    rewrite Hg'. tauto. }
  exists (count_matching D q). split.
  - apply number_filter. intros row. rewrite row_agrees_iff. unfold counted. split.
    + intros H. split; [intros c v Hc; apply H, Hin; left; exact Hc|intros c v Hc Hw; apply H, Hin; right; auto].
    + intros [H1 H2] c v Hc. apply Hin in Hc as [Hc|[Hc Hw]]; auto.
  - destruct (query_count_ok D WF dyn t' q Hok1 Hq) as (t1 & E1 & Hok2).
    destruct (query_count_ok D WF dyn t1 given Hok2 Hg) as (t2 & E2 & _). unfold query_prob. fold q. rewrite E1. cbn [bind]. rewrite E2. cbn [bind].
    split; intros H; [|rewrite H; reflexivity]. rewrite (proj2 (Z.eqb_neq _ _) H). eexists. reflexivity.
Qed.
Print Assumptions C05_values_override_given.
(** So "the probability of A = 0 given A = 1" is not 0, and not even a probability *)
Theorem C05_contradiction_refuted : exists D, wf_dataset D /\ threshold_ok D /\
  exists t t' p, build_tree D false = Ok t /\ query_prob D false [(0%nat, 0)] [(0%nat, 1)] t = Ok (p, t') /\ (p > 1)%R.
Proof.
  exists (Dex 3). split; [apply Dex_wf|]. split; [apply Dex_threshold|].
  destruct (build_tree_ok (Dex 3) (Dex_wf 3) false Dex_threshold) as (t & Et & Hok). exists t.
  destruct (C05_values_override_given (Dex 3) false (Dex_wf 3) (Dex_no_minus_one 3) Dex_threshold) as (t0 & Et0 & H). rewrite Et in Et0. injection Et0 as <-.
  assert (W : forall v, wf_query (Dex 3) [(0%nat, v)]).
  { intros v. split; [constructor; [intros []|constructor]|]. intros c w [E|[]]. injection E as <- _. cbn. lia. }
  destruct (H [] [] t (Forall_nil _) eq_refl [(0%nat, 0)] [(0%nat, 1)] (W 0) (W 1)) as (used & Hu & Hp & _).
  change (count_matching (Dex 3) [(0%nat, 1)]) with 1 in Hp. destruct (Hp ltac:(discriminate)) as (t' & Ep). exists t', (IZR used / IZR 1)%R. split; [exact Et|]. split; [exact Ep|].
  assert (Hused : used = 4).
  { destruct Hu as (l & Hn & Hl & ->).
    assert (Hp' : Permutation l [0; 1; 4; 6]%nat).
    { apply NoDup_Permutation; [exact Hn|repeat constructor; cbn; intuition discriminate|]. intros i. rewrite Hl. unfold counted. split.
      - intros (row & Er & H1 & _). specialize (H1 0%nat 0 (or_introl eq_refl)). cbn [rows Dex] in Er.
        do 7 (destruct i as [|i]; [cbn in Er; injection Er as <-; cbn in H1; try discriminate H1; cbn; tauto|]). destruct i; discriminate Er.
      - intros Hi. cbn [In] in Hi. destruct Hi as [<- |[<- |[<- |[<- |[]]]]]; eexists; (split; [reflexivity|]); (split; [intros c v [E|[]]; injection E as <- <-; reflexivity|]);
          intros c v [E|[]] Hw; injection E as <- <-; exfalso; exact (Hw 0 (or_introl eq_refl)). }
    apply Permutation_length in Hp'. rewrite Hp'. reflexivity. }
  rewrite Hused. lra.
Qed.
