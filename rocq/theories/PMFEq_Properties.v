(** C68: when two probability tables compare equal, and what the comparison printers show. *)
From Coq Require Import Reals Lra.
From Verif Require Import Base Key_Model Key_Spec Key_Proofs PMF_Model PMF_Spec Prob_Spec Info_Spec Table_Spec
  Prob_Proofs PMF_Proofs PMF_Cond_Proofs Info_Proofs PMF_Data_Proofs Table_Proofs PMFEq_Model PMFEq_Spec PMFEq_Proofs.
Open Scope R_scope.

(** ** equality of tables *)
(** tables whose keys are integers or tuples of integers, a single one unwrapped, as the library
    makes them (see C68_made_from_data): equal means the same keys and numbers within the tolerance *)
Theorem C68_equal_means_agreement : forall tol P Q,
  plain_keys (probabilities P) -> NoDup (map fst (probabilities P)) -> plain_keys (probabilities Q) -> NoDup (map fst (probabilities Q)) ->
  (pmf_eq tol P Q = true <-> agree tol (probabilities P) (probabilities Q)).
Proof. apply pmf_eq_agree. Qed.
Print Assumptions C68_equal_means_agreement.
(** whatever the keys: reflexive, symmetric, blind to the order of insertion *)
Theorem C68_equality_laws : forall tol P P' Q C D, 0 <= tol ->
  pmf_eq tol P P = true /\ pmf_eq tol P Q = pmf_eq tol Q P /\
  (Permutation (probabilities P) (probabilities P') -> NoDup (map fst (probabilities P)) -> pmf_eq tol P Q = pmf_eq tol P' Q) /\
  cpmf_eq C C = true /\ cpmf_eq C D = cpmf_eq D C.
Proof.
  intros tol P P' Q C D Ht. split; [apply pmf_eq_refl; assumption|]. split; [apply pmf_eq_sym|]. split; [apply pmf_eq_perm|]. split; [apply cpmf_eq_refl|apply cpmf_eq_sym].
Qed.
Print Assumptions C68_equality_laws.

Definition two_values (p : R) : pmf := with_probabilities empty_pmf [(PInt 0, p); (PInt 1, 1 - p)].
Lemma two_plain p : plain_keys (probabilities (two_values p)) /\ NoDup (map fst (probabilities (two_values p))).
Proof.
  split.
  - intros k r [E|[E|[]]]; injection E as <- _; reflexivity.
  - cbn. repeat constructor; cbn; intuition discriminate.
Qed.
Lemma two_eq p q : pmf_eq tolerance (two_values p) (two_values q) = true <-> Rabs (p - q) <= tolerance.
Proof.
  destruct (two_plain p) as (H1 & H2), (two_plain q) as (H3 & H4). rewrite (pmf_eq_agree _ _ _ H1 H2 H3 H4). split.
  - intros (_ & H). apply (H (PInt 0)); left; reflexivity.
  - intros H. split; [cbn; tauto|]. intros k a b [E|[E|[]]] [E'|[E'|[]]]; injection E as <- <-; try discriminate; injection E' as <-; [assumption|].
    replace (1 - p - (1 - q)) with (q - p) by ring. rewrite Rabs_minus_sym. assumption.
Qed.
(** not transitive, even on distributions over the same two values *)
Theorem C68_equality_not_transitive_refuted : exists P Q S,
  (forall T, In T [P; Q; S] -> plain_keys (probabilities T) /\ NoDup (map fst (probabilities T)) /\
     (forall k r, In (k, r) (probabilities T) -> 0 < r) /\ Sum (map snd (probabilities T)) = 1) /\
  pmf_eq tolerance P Q = true /\ pmf_eq tolerance Q S = true /\ pmf_eq tolerance P S = false.
Proof.
  pose proof tolerance_pos as Ht. assert (Ht' : tolerance < 1 / 100) by (unfold tolerance; lra).
  exists (two_values (1 / 2)), (two_values (1 / 2 + tolerance)), (two_values (1 / 2 + 2 * tolerance)). split; [|split; [|split]].
  - intros T HT.
    assert (HT' : exists p, 0 < p < 1 /\ T = two_values p) by (destruct HT as [<-|[<-|[<-|[]]]]; eexists; (split; [|reflexivity]); lra).
    destruct HT' as (p & Hp & ->). split; [apply two_plain|]. split; [apply two_plain|]. split; [|cbn; lra].
    intros k r [E|[E|[]]]; injection E as _ <-; lra.
  - apply two_eq. rewrite Rabs_left; lra.
  - apply two_eq. rewrite Rabs_left; lra.
  - destruct (pmf_eq _ _ _) eqn:E; [|reflexivity]. apply two_eq in E. rewrite Rabs_left in E; lra.
Qed.
Print Assumptions C68_equality_not_transitive_refuted.

(** a key stored with probability 0 makes tables unequal although p() answers alike everywhere *)
Theorem C68_zero_entries_matter : forall P k, plain_keys (probabilities P) -> NoDup (map fst (probabilities P)) -> In (k, 0) (probabilities P) ->
  (forall args, pmf_p (remove_zeros P) args = pmf_p P args) /\ pmf_eq tolerance P (remove_zeros P) = false.
Proof.
  intros P k Hp HN Hk.
  set (keep := fun kv : pyobj * R => if Req_EM_T (snd kv) 0 then false else true).
  assert (HN' : NoDup (map fst (filter keep (probabilities P)))).
  { clear Hk Hp. induction (probabilities P) as [|x l IH]; [constructor|]. cbn [map] in HN. inversion HN; subst. cbn [filter]. destruct (keep x); [|auto]. cbn [map]. constructor; [|auto].
    intros Hin. apply H1. apply in_map_iff in Hin as (y & E & Hy). apply filter_In in Hy as (Hy & _). rewrite <- E. apply in_map. assumption. }
  split.
  - intros args. unfold pmf_p. cbn [remove_zeros probabilities with_probabilities]. fold keep.
    set (q := process_pmf_key args). destruct (assoc pyobj_eqb q (filter keep (probabilities P))) as [r|] eqn:E.
    + apply kassoc_In in E. apply filter_In in E as (E & _). rewrite (kassoc_NoDup _ _ _ HN E). reflexivity.
    + apply kassoc_None in E. destruct (assoc pyobj_eqb q (probabilities P)) as [r|] eqn:E'; [|reflexivity]. apply kassoc_In in E'.
      destruct (Req_EM_T r 0) as [-> |Hr]; [reflexivity|]. exfalso. apply E. apply In_key. exists r. apply filter_In. split; [assumption|]. unfold keep. cbn [snd]. destruct (Req_EM_T r 0); [contradiction|reflexivity].
  - destruct (pmf_eq _ _ _) eqn:E; [|reflexivity]. exfalso. apply pmf_eq_true in E as (E & _). cbn [remove_zeros probabilities with_probabilities] in E. fold keep in E.
    assert (Hin : In k (map fst (filter keep (probabilities P)))) by (apply E, In_key; eauto).
    apply In_key in Hin as (r & Hr). apply filter_In in Hr as (Hr & Hr'). unfold keep in Hr'. cbn [snd] in Hr'.
    pose proof (kassoc_NoDup _ _ _ HN Hk) as E1. pose proof (kassoc_NoDup _ _ _ HN Hr) as E2. rewrite E1 in E2. injection E2 as <-. destruct (Req_EM_T 0 0); [discriminate|contradiction].
Qed.
Print Assumptions C68_zero_entries_matter.

(** ** tables made from data *)
Theorem C68_made_from_data : forall v n w m, has_rows v n -> (0 < n)%nat -> has_rows w m -> (0 < m)%nat ->
  exists P Q, new_pmf v = Ok P /\ new_pmf w = Ok Q /\
    (plain_keys (probabilities P) /\ NoDup (map fst (probabilities P)) /\ plain_keys (probabilities Q) /\ NoDup (map fst (probabilities Q))) /\
    (pmf_eq tolerance P Q = true <->
       forall x, ((0 < matching v n x)%nat <-> (0 < matching w m x)%nat) /\ Rabs (INR (matching v n x) / INR n - INR (matching w m x) / INR m) <= tolerance).
Proof.
  intros v n w m Hv Hn Hw Hm. destruct (data_pmf v n Hv Hn) as (P & EP & DP & PP & _ & KP & _). destruct (data_pmf w m Hw Hm) as (Q & EQ & DQ & PQ & _ & KQ & _).
  assert (SP : is_probability (urows n)) by (apply uniform_probability; destruct n; [lia|discriminate]).
  assert (SQ : is_probability (urows m)) by (apply uniform_probability; destruct m; [lia|discriminate]).
  assert (NP : NoDup (map fst (probabilities P))) by (apply NoDup_leaves_fst, DP). assert (NQ : NoDup (map fst (probabilities Q))) by (apply NoDup_leaves_fst, DQ).
  exists P, Q. split; [assumption|]. split; [assumption|]. split; [auto|].
  assert (Hin : forall u k (R0 : pmf), has_rows u k -> (0 < k)%nat -> distribution (urows k) (value_at u) (probabilities R0) -> plain_keys (probabilities R0) ->
    (forall key r, In (key, r) (probabilities R0) -> r <> 0 /\ exists i, (i < k)%nat /\ key = as_key (value_at u i)) ->
    forall x, (0 < matching u k x)%nat <-> In (as_key x) (map fst (probabilities R0))).
  { intros u k R0 Hu Hk HD HP HK x. assert (0 < INR k) by (apply lt_0_INR; assumption). split.
    - intros Hx. destruct (proj2 (proj2 HD) x) as (key & r & Hin & El).
      { rewrite data_pr. apply lt_0_INR in Hx. assert (0 < INR (matching u k x) / INR k) by (apply Rdiv_lt_0_compat; assumption). lra. }
      apply In_key. exists r. rewrite <- El, <- (HP _ _ Hin). assumption.
    - intros Hx. apply In_key in Hx as (r & Hr). destruct (HK _ _ Hr) as (Hr0 & _). rewrite (proj1 (proj2 HD) _ _ Hr), leaves_as_key, data_pr in Hr0.
      destruct (matching u k x); [exfalso; apply Hr0; simpl; unfold Rdiv; ring|lia]. }
  pose proof (Hin v n P Hv Hn DP PP KP) as IP. pose proof (Hin w m Q Hw Hm DQ PQ KQ) as IQ. clear Hin.
  rewrite (pmf_eq_agree _ _ _ PP NP PQ NQ). split.
  - intros (H1 & H2) x. split; [rewrite IP, IQ; apply H1|]. destruct (matching v n x) eqn:Ex, (matching w m x) eqn:Ey.
    + simpl. unfold Rdiv. rewrite !Rmult_0_l, Rminus_0_r, Rabs_R0. left. apply tolerance_pos.
    + exfalso. assert (Hy : (0 < matching w m x)%nat) by lia. apply IQ, H1, IP in Hy. lia.
    + exfalso. assert (Hy : (0 < matching v n x)%nat) by lia. apply IP, H1, IQ in Hy. lia.
    + rewrite <- Ex, <- Ey. assert (Hx : (0 < matching v n x)%nat) by lia. assert (Hy : (0 < matching w m x)%nat) by lia.
      apply IP in Hx. apply IQ in Hy. apply In_key in Hx as (a & Ha). apply In_key in Hy as (b & Hb).
      specialize (H2 _ _ _ Ha Hb). rewrite (proj1 (proj2 DP) _ _ Ha), (proj1 (proj2 DQ) _ _ Hb), leaves_as_key, !data_pr in H2. assumption.
  - intros H. split.
    + intros k. split; intros Hk; pose proof Hk as Hk0; apply In_key in Hk0 as (r & Hr).
      * rewrite (PP _ _ Hr) in Hk |- *. apply IQ, H, IP. assumption.
      * rewrite (PQ _ _ Hr) in Hk |- *. apply IP, H, IQ. assumption.
    + intros k a b Ha Hb. rewrite (proj1 (proj2 DP) _ _ Ha), (proj1 (proj2 DQ) _ _ Hb), !data_pr. apply H.
Qed.
Print Assumptions C68_made_from_data.
(** with fewer than 10^10 pairs of rows the tolerance never blurs anything: equal means exactly the
    same relative frequencies ... *)
Theorem C68_exact_on_small_data : forall v n w m P Q, has_rows v n -> (0 < n)%nat -> has_rows w m -> (0 < m)%nat -> INR n * INR m < 10 ^ 10 ->
  new_pmf v = Ok P -> new_pmf w = Ok Q ->
  (pmf_eq tolerance P Q = true <-> forall x, (matching v n x * m = matching w m x * n)%nat).
Proof.
  intros v n w m P Q Hv Hn Hw Hm Hs EP EQ. destruct (C68_made_from_data v n w m Hv Hn Hw Hm) as (P' & Q' & E1 & E2 & _ & H). rewrite EP in E1. rewrite EQ in E2. injection E1 as <-. injection E2 as <-.
  rewrite H. clear H. assert (Gn : 0 < INR n) by (apply lt_0_INR; assumption). assert (Gm : 0 < INR m) by (apply lt_0_INR; assumption).
  assert (Gnm : 0 < INR n * INR m) by (apply Rmult_lt_0_compat; assumption). split.
  - intros H x. destruct (H x) as (_ & Hx). set (a := matching v n x) in *. set (b := matching w m x) in *.
    assert (E : (INR a / INR n - INR b / INR m) * (INR n * INR m) = INR (a * m) - INR (b * n)) by (rewrite !mult_INR; field; lra).
    assert (B : Rabs (INR (a * m) - INR (b * n)) < 1).
    { rewrite <- E, Rabs_mult, (Rabs_pos_eq (INR n * INR m)) by lra. apply Rle_lt_trans with (tolerance * (INR n * INR m)); [apply Rmult_le_compat_r; lra|].
      unfold tolerance. apply Rlt_le_trans with (/ 10 ^ 10 * 10 ^ 10); [apply Rmult_lt_compat_l; [apply Rinv_0_lt_compat; lra|assumption]|]. rewrite Rinv_l; lra. }
    rewrite !INR_IZR_INZ, <- minus_IZR, <- abs_IZR in B. apply lt_IZR in B. apply Nat2Z.inj. lia.
  - intros H x. specialize (H x). set (a := matching v n x) in *. set (b := matching w m x) in *. split; [nia|].
    assert (E : INR a / INR n = INR b / INR m).
    { apply (f_equal INR) in H. rewrite !mult_INR in H. apply Rmult_eq_reg_r with (INR n * INR m); [|lra]. replace (INR a / INR n * (INR n * INR m)) with (INR a * INR m) by (field; lra). rewrite H. field. lra. }
    rewrite E, Rminus_diag_eq, Rabs_R0 by reflexivity. left. apply tolerance_pos.
Qed.
Print Assumptions C68_exact_on_small_data.
Lemma matching_two a b x (v := Simple {| vid := 0; insts := repeat 0%Z a ++ repeat 1%Z b; array := false; lazy := false |}) :
  matching v (a + b) x = ((if eqv [0%Z] x then a else 0) + (if eqv [1%Z] x then b else 0))%nat.
Proof.
  unfold matching. rewrite seq_app, filter_app, app_length. cbn [value_at v insts]. rewrite Nat.add_0_l. f_equal.
  - rewrite (filter_ext_in _ (fun _ => eqv [0%Z] x)).
    + transitivity (length (filter (fun _ : nat => eqv [0%Z] x) (seq 0 a))); [reflexivity|]. destruct (eqv [0%Z] x).
      * assert (G : forall l : list nat, filter (fun _ => true) l = l) by (induction l as [|y l IHl]; cbn; congruence). rewrite G, seq_length. reflexivity.
      * assert (G : forall l : list nat, filter (fun _ => false) l = []) by (induction l as [|y l IHl]; cbn; congruence). rewrite G. reflexivity.
    + intros i Hi. apply in_seq in Hi. rewrite app_nth1 by (rewrite repeat_length; lia). rewrite nth_repeat. reflexivity.
  - rewrite (filter_ext_in _ (fun _ => eqv [1%Z] x)).
    + destruct (eqv [1%Z] x).
      * assert (G : forall l : list nat, filter (fun _ => true) l = l) by (induction l as [|y l IHl]; cbn; congruence). rewrite G, seq_length. reflexivity.
      * assert (G : forall l : list nat, filter (fun _ => false) l = []) by (induction l as [|y l IHl]; cbn; congruence). rewrite G. reflexivity.
    + intros i Hi. apply in_seq in Hi. rewrite app_nth2 by (rewrite repeat_length; lia). rewrite repeat_length.
      assert (E : nth (i - a) (repeat 1%Z b) 0%Z = 1%Z) by (apply (repeat_spec b 1%Z), nth_In; rewrite repeat_length; lia). rewrite E. reflexivity.
Qed.
(** ... while on 10^10 rows and more, columns that differ in a row compare equal *)
Theorem C68_large_data_blurred : forall a b, (0 < a)%nat -> (0 < b)%nat -> 10 ^ 10 <= INR (a + b + 1) ->
  let col a b := Simple {| vid := 0; insts := repeat 0%Z a ++ repeat 1%Z b; array := false; lazy := false |} in
  exists P Q, new_pmf (col (a + 1)%nat b) = Ok P /\ new_pmf (col a (b + 1)%nat) = Ok Q /\ pmf_eq tolerance P Q = true.
Proof.
  intros a b Ha Hb Hbig col.
  assert (H1 : has_rows (col (a + 1)%nat b) (a + 1 + b)) by (cbn; rewrite app_length, !repeat_length; reflexivity).
  assert (H2 : has_rows (col a (b + 1)%nat) (a + (b + 1))) by (cbn; rewrite app_length, !repeat_length; reflexivity).
  destruct (C68_made_from_data _ (a + 1 + b) _ (a + (b + 1)) H1 ltac:(lia) H2 ltac:(lia)) as (P & Q & E1 & E2 & _ & H). exists P, Q. split; [assumption|]. split; [assumption|].
  apply H. intros x. unfold col. rewrite !matching_two.
  replace (a + 1 + b)%nat with (a + b + 1)%nat by lia. replace (a + (b + 1))%nat with (a + b + 1)%nat by lia.
  assert (Hi : / INR (a + b + 1) <= tolerance) by (unfold tolerance; apply Rinv_le_contravar; lra).
  assert (Hp : 0 < / INR (a + b + 1)) by (apply Rinv_0_lt_compat; lra).
  assert (E : forall c, (c + 1 <> 0)%nat -> INR (c + 1) / INR (a + b + 1) - INR c / INR (a + b + 1) = / INR (a + b + 1)) by (intros c _; rewrite plus_INR; simpl; field; lra).
  assert (Z0 : 0 <= tolerance) by (left; apply tolerance_pos).
  destruct (eqv [0%Z] x) eqn:X0, (eqv [1%Z] x) eqn:X1.
  - apply eqv_true in X0, X1. subst x. discriminate.
  - split; [lia|]. rewrite !Nat.add_0_r. rewrite E by lia. rewrite Rabs_pos_eq; lra.
  - split; [lia|]. rewrite !Nat.add_0_l, Rabs_minus_sym. rewrite E by lia. rewrite Rabs_pos_eq; lra.
  - split; [lia|]. rewrite Rminus_diag_eq, Rabs_R0 by reflexivity. assumption.
Qed.
Print Assumptions C68_large_data_blurred.

(** CPMF(v, z): equal when the same conditions occur and, under each, the tables agree *)
Theorem C68_conditional_from_data : forall v z n w y m, has_rows v n -> has_rows z n -> has_rows w m -> has_rows y m ->
  exists C D, new_cpmf v z = Ok C /\ new_cpmf w y = Ok D /\
    (cpmf_eq C D = true <->
       (forall c, (0 < matching z n c)%nat <-> (0 < matching y m c)%nat) /\
       (forall c, (0 < matching z n c)%nat -> agree tolerance (probabilities (given C [as_key c])) (probabilities (given D [as_key c])))).
Proof.
  intros v z n w y m Hv Hz Hw Hy.
  destruct (new_cpmf_rv v z (seq 0 n) (value_at v) (value_at z)) as (C & E1 & T1 & P1 & _); [apply instances_ok; assumption|apply instances_ok; assumption|].
  destruct (new_cpmf_rv w y (seq 0 m) (value_at w) (value_at y)) as (D & E2 & T2 & P2 & _); [apply instances_ok; assumption|apply instances_ok; assumption|].
  exists C, D. split; [assumption|]. split; [assumption|].
  assert (K : forall u c k E, has_rows u k -> has_rows c k -> new_cpmf u c = Ok E -> (forall x, (0 < matching c k x)%nat <-> In (as_key x) (map fst E)) /\ forall key, In key (map fst E) -> key = as_key (leaves key)).
  { intros u c k E Hu Hc HE. destruct (new_cpmf_keys u c E) as (_ & _ & HK); [rewrite (instances_ok u k Hu), (instances_ok c k Hc), !map_length; reflexivity|assumption|].
    rewrite (instances_ok c k Hc) in HK. split.
    - intros x. rewrite HK, in_map_iff. unfold matching. split.
      + intros Hx. destruct (filter _ (seq 0 k)) as [|i l] eqn:El; [simpl in Hx; lia|]. assert (Hi : In i (i :: l)) by (left; reflexivity). rewrite <- El in Hi. apply filter_In in Hi as (Hi & Ei).
        exists i. split; [|assumption]. destruct (list_eq_dec Z.eq_dec (value_at c i) x) as [-> |]; [reflexivity|discriminate].
      + intros (i & Ei & Hi). apply as_key_inj in Ei. assert (Hin : In i (filter (fun i => if list_eq_dec Z.eq_dec (value_at c i) x then true else false) (seq 0 k))).
        { apply filter_In. split; [assumption|]. destruct (list_eq_dec Z.eq_dec (value_at c i) x); [reflexivity|contradiction]. }
        destruct (filter _ (seq 0 k)); [destruct Hin|simpl; lia].
    - intros key Hk. apply HK, in_map_iff in Hk as (i & <- & _). rewrite leaves_as_key. reflexivity. }
  destruct (K v z n C Hv Hz E1) as (K1 & F1). destruct (K w y m D Hw Hy E2) as (K2 & F2). clear K.
  assert (N : forall (X Z : nat -> list BinNums.Z) l E c, cond_table (uniform l) X Z E -> NoDup (map fst (probabilities (given E [as_key c])))).
  { intros X Z l E c HT. destruct (Req_dec (pr1 (uniform l) Z c) 0) as [E0|E0]; [rewrite (proj2 (HT c) E0); constructor|]. apply NoDup_leaves_fst, (proj1 (HT c) E0). }
  rewrite cpmf_eq_true. split; intros (H1 & H2).
  - split; [intros c; rewrite K1, K2; apply H1|]. intros c Hc. apply (pmf_eq_agree tolerance); [apply P1|eapply N; eassumption|apply P2|eapply N; eassumption|]. apply H2, K1, Hc.
  - split.
    + intros k. split; intros Hk.
      * rewrite (F1 k Hk) in Hk |- *. apply K2, H1, K1, Hk.
      * rewrite (F2 k Hk) in Hk |- *. apply K1, H1, K2, Hk.
    + intros k Hk. rewrite (F1 k Hk) in Hk |- *. apply pmf_eq_agree; [apply P1|eapply N; eassumption|apply P2|eapply N; eassumption|]. apply H2, K1, Hk.
Qed.
Print Assumptions C68_conditional_from_data.

(** ** tables made by condition_on with one variable left: the numbers are not compared at all *)
Definition one_tuples (P : pmf) : Prop := forall k r, In (k, r) (probabilities P) -> exists x, k = PTup [x].
Lemma one_tuple_p P args : one_tuples P -> pmf_p P args = 0.
Proof.
  intros H. unfold pmf_p. rewrite process_key. destruct (assoc _ _ _) as [r|] eqn:E; [|reflexivity]. apply kassoc_In in E. destruct (H _ _ E) as (x & Ex).
  destruct (leaves_list args) as [|a [|b l]]; discriminate.
Qed.
Lemma condition_on_shape P cond C : condition_on P cond = Ok C -> length (others (variableIDs P) (variableIDs cond)) = 1%nat ->
  forall k T, In (k, T) C -> one_tuples T.
Proof.
  unfold condition_on. destruct (variableIDs cond) as [|c0 cids] eqn:Ec; [discriminate|]. intros E H1.
  assert (Ho : length (filter (fun v => negb (existsb (Z.eqb v) (c0 :: cids))) (variableIDs P)) = 1%nat).
  { rewrite <- H1. unfold others. f_equal. apply filter_ext. intros v. destruct (in_dec Z.eq_dec v (c0 :: cids)) as [Hi|Hi].
    - rewrite (proj2 (existsb_exists _ _)); [reflexivity|]. exists v. split; [assumption|apply Z.eqb_refl].
    - destruct (existsb _ _) eqn:E'; [|reflexivity]. apply existsb_exists in E' as (x & Hx & Ex). apply Z.eqb_eq in Ex. subst. contradiction. }
  set (non := filter _ (variableIDs P)) in *. clearbody non. clear H1.
  assert (G : forall l C0 C, (forall k T, In (k, T) C0 -> one_tuples T) ->
    foldM (fun C kv => ck <- mapM (fun v => i <- joint_index (variableIDs P) v ;; key_at (fst kv) i) (c0 :: cids) ;; nk <- mapM (fun v => i <- joint_index (variableIDs P) v ;; key_at (fst kv) i) non ;;
      Ok (store_conditional C (unwrap ck) (PTup nk) (snd kv) (pmf_p cond [unwrap ck]))) l C0 = Ok C -> forall k T, In (k, T) C -> one_tuples T).
  { clear E C. induction l as [|kv l IH]; intros C0 C HC E; cbn [foldM] in E; [injection E as <-; exact HC|].
    destruct (mapM _ (c0 :: cids)) as [ck|] eqn:E1; [|discriminate]. cbn [bind] in E. destruct (mapM _ non) as [nk|] eqn:E2; [|discriminate]. cbn [bind] in E.
    eapply IH; [|exact E]. apply mapM_length in E2. rewrite Ho in E2. destruct nk as [|x [|? ?]]; try discriminate. clear E IH E2.
    intros k T Hin. unfold store_conditional in Hin. set (zk := unwrap ck) in *. set (pz := pmf_p cond [zk]) in *.
    set (P0 := match assoc pyobj_eqb zk C0 with Some P0 => P0 | None => empty_pmf end) in *.
    assert (HP0 : one_tuples P0).
    { unfold P0. destruct (assoc pyobj_eqb zk C0) as [P1|] eqn:Ea; [apply kassoc_In in Ea; eapply HC; eassumption|intros ? ? []]. }
    assert (HS : forall (d : cpmf) v, In (k, T) (assoc_set pyobj_eqb zk v d) -> T = v \/ In (k, T) d).
    { induction d as [|[k' v'] d IHd]; intros v0 Hv; cbn [assoc_set] in Hv.
      - destruct Hv as [Hv|[]]. injection Hv as _ <-. auto.
      - destruct (pyobj_eqb zk k'); destruct Hv as [Hv|Hv]; [injection Hv as _ <-; auto|right; right; assumption|right; left; assumption|]. destruct (IHd _ Hv); [auto|right; right; assumption]. }
    apply HS in Hin as [-> |Hin]; [|eapply HC; eassumption]. destruct (Req_EM_T pz 0); [assumption|].
    intros k1 r1 Hk1. cbn [probabilities with_probabilities] in Hk1. assert (Hk1' : In k1 (map fst (assoc_set pyobj_eqb (PTup [x]) (snd kv / pz) (probabilities P0)))) by (apply In_key; eauto).
    apply kset_keys in Hk1' as [-> |Hk1']; [eauto|]. apply In_key in Hk1' as (r & Hr). eapply HP0; eassumption. }
  eapply G; [|exact E]. intros ? ? [].
Qed.
Theorem C68_condition_on_numbers_ignored_refuted : forall P cond P' cond' C D,
  condition_on P cond = Ok C -> condition_on P' cond' = Ok D ->
  length (others (variableIDs P) (variableIDs cond)) = 1%nat -> length (others (variableIDs P') (variableIDs cond')) = 1%nat ->
  (forall k, In k (map fst C) <-> In k (map fst D)) ->
  (forall k x, In x (map fst (probabilities (given C [k]))) <-> In x (map fst (probabilities (given D [k])))) ->
  cpmf_eq C D = true.
Proof.
  intros P cond P' cond' C D E1 E2 H1 H2 HK HI. apply cpmf_eq_true. split; [assumption|]. intros k Hk. apply pmf_eq_true. split; [intros x; apply HI|].
  assert (G : forall C args, (forall k T, In (k, T) C -> one_tuples T) -> one_tuples (given C args)).
  { intros C0 args HC. unfold given. destruct (assoc _ _ _) as [T|] eqn:Ea; [apply kassoc_In in Ea; eapply HC; eassumption|intros ? ? []]. }
  intros x _. rewrite !one_tuple_p; [rewrite Rminus_0_r, Rabs_R0; left; apply tolerance_pos| |].
  - apply G. eapply condition_on_shape; eassumption.
  - apply G. eapply condition_on_shape; eassumption.
Qed.
Print Assumptions C68_condition_on_numbers_ignored_refuted.
(** ... so a fair coin and one that never shows heads... almost: any two biases compare equal *)
Definition biased (p : R) : pmf := {| probabilities := [(PTup [PInt 0; PInt 0], p); (PTup [PInt 1; PInt 0], 1 - p)]; variableIDs := [1; 2]%Z; variable_IDs := None |}.
Definition the_condition : pmf := {| probabilities := [(PInt 0, 1)]; variableIDs := [2]%Z; variable_IDs := None |}.
Theorem C68_any_two_biases_equal_refuted : forall p q,
  exists C D, condition_on (biased p) the_condition = Ok C /\ condition_on (biased q) the_condition = Ok D /\
    probabilities (given C [PInt 0]) = [(PTup [PInt 0], p); (PTup [PInt 1], 1 - p)] /\
    probabilities (given D [PInt 0]) = [(PTup [PInt 0], q); (PTup [PInt 1], 1 - q)] /\ cpmf_eq C D = true.
Proof.
  assert (G : forall p, exists C, condition_on (biased p) the_condition = Ok C /\ map fst C = [PInt 0] /\ forall k, probabilities (given C [k]) = if pyobj_eqb (as_key (leaves k)) (PInt 0) then [(PTup [PInt 0], p); (PTup [PInt 1], 1 - p)] else []).
  { intros p. assert (Ep : pmf_p the_condition [PInt 0] = 1) by reflexivity.
    exists [(PInt 0, with_probabilities empty_pmf [(PTup [PInt 0], p); (PTup [PInt 1], 1 - p)])].
    split; [|split; [reflexivity|]].
    - unfold condition_on. cbn [variableIDs the_condition biased probabilities foldM mapM joint_index index_of of_option key_at nth_error bind fst snd filter existsb negb Z.eqb Pos.eqb orb unwrap option_map].
      change (filter _ [1%Z; 2%Z]) with [1%Z]. cbn [mapM joint_index index_of of_option Z.eqb Pos.eqb bind key_at nth_error].
      unfold store_conditional at 2. rewrite Ep. cbn [assoc]. destruct (Req_EM_T 1 0) as [E|_]; [lra|].
      unfold store_conditional. destruct (Req_EM_T 1 0) as [E|_]; [lra|]. cbn [assoc_set assoc pyobj_eqb Z.eqb probabilities with_probabilities empty_pmf].
      unfold Rdiv. rewrite Rinv_1, !Rmult_1_r. reflexivity.
    - intros k. unfold given. rewrite process_key. unfold leaves_list. cbn [flat_map]. rewrite app_nil_r. cbn [assoc]. destruct (pyobj_eqb (as_key (leaves k)) (PInt 0)); reflexivity. }
  intros p q. destruct (G p) as (C & E1 & K1 & T1). destruct (G q) as (D & E2 & K2 & T2). exists C, D. split; [assumption|]. split; [assumption|].
  split; [rewrite T1; reflexivity|]. split; [rewrite T2; reflexivity|].
  eapply C68_condition_on_numbers_ignored_refuted; [exact E1|exact E2|reflexivity|reflexivity|rewrite K1, K2; tauto|].
  intros k x. rewrite T1, T2. destruct (pyobj_eqb _ _); cbn; tauto.
Qed.
Print Assumptions C68_any_two_biases_equal_refuted.

(** ** the printers *)
Section Printers.
  Context {char : Type} (space : char) (str : pyobj -> list char) (fmt : R -> list char).
  (** the rows of a printed comparison *)
  Fixpoint rows_of (l : list (line (char := char))) : list (bool * list (list char)) :=
    match l with [] => [] | Row b f :: l' => (b, f) :: rows_of l' | _ :: l' => rows_of l' end.
  (** how wide a line is on the screen: '| a | b | c |' *)
  Definition shown_width (x : line (char := char)) : nat :=
    match x with Rule n => n | Blank => 0 | Row _ f => (1 + fold_right (fun t n => length t + 3 + n) 0 f)%nat end.

  (** specification: a text with spaces in front of it up to a width *)
  Definition right_aligned (n : nat) (t : list char) : list char := repeat space (n - length t) ++ t.
  Lemma rjust_length n t : (length t <= n)%nat -> length (rjust space n t) = n.
  Proof. intros H. unfold rjust. rewrite app_length, repeat_length. lia. Qed.
  Lemma width_ge (l : list nat) : forall m, (m <= fold_left Nat.max l m)%nat /\ forall x, In x l -> (x <= fold_left Nat.max l m)%nat.
  Proof.
    induction l as [|y l IH]; intros m; cbn [fold_left]; [split; [lia|intros ? []]|]. destruct (IH (Nat.max m y)) as (H1 & H2). split; [lia|]. intros x [-> |Hx]; [lia|auto].
  Qed.
  Lemma width_ok l w : width str l = Ok w -> l <> [] /\ forall k, In k l -> (length (str k) <= w)%nat.
  Proof.
    destruct l as [|k l]; cbn [width]; [discriminate|]. intros E. injection E as <-. split; [discriminate|]. destruct (width_ge (map (fun k => length (str k)) l) (length (str k))) as (H1 & H2).
    intros x [<-|Hx]; [exact H1|]. apply H2. apply in_map_iff. eauto.
  Qed.

  (** tables whose keys are all numbers, or all tuples *)
  Definition one_kind (A B : pmf) : Prop := forall x y, In x (map fst (probabilities A) ++ map fst (probabilities B)) -> In y (map fst (probabilities A) ++ map fst (probabilities B)) ->
    wide (leaves x) = wide (leaves y).
  Theorem C68_pmf_diff_rows : forall A B, plain_keys (probabilities A) -> plain_keys (probabilities B) -> one_kind A B ->
    probabilities A ++ probabilities B <> [] ->
    exists ls keys w, pmf_diff space str fmt A B = Ok ls /\
      NoDup keys /\ (forall k, In k keys <-> In k (map fst (probabilities A)) \/ In k (map fst (probabilities B))) /\
      StronglySorted (fun k k' => lex_lt (leaves k) (leaves k')) keys /\
      rows_of ls = map (fun k => (if Rgt_dec (Rabs (pmf_p A [k] - pmf_p B [k])) (/ 10 ^ 10) then true else false,
                                  [right_aligned w (str k); right_aligned 8 (fmt (pmf_p A [k])); right_aligned 8 (fmt (pmf_p B [k]))])) keys /\
      ((forall r, (length (fmt r) <= 8)%nat) -> forall x, In x ls -> shown_width x = (26 + w)%nat).
  Proof.
    intros A B PA PB Hkind Hne. unfold pmf_diff. set (U := as_set _). destruct (as_set_ok (keys_of (probabilities A) ++ keys_of (probabilities B))) as (HN & HU). fold U in HN, HU.
    assert (Hpl : forall k, In k U -> k = as_key (leaves k)).
    { intros k Hk. apply HU, in_app_iff in Hk as [Hk|Hk]; apply In_key in Hk as (r & Hr); [eapply PA|eapply PB]; eassumption. }
    destruct (sort_keys_ok (map leaves U)) as (l & El & HP & Hs).
    { intros x y Hx Hy. apply in_map_iff in Hx as (kx & <- & Hx). apply in_map_iff in Hy as (ky & <- & Hy). apply Hkind; [apply HU in Hx; exact Hx|apply HU in Hy; exact Hy]. }
    { apply NoDup_leaves; assumption. }
    rewrite <- (plain_list U Hpl) in El. rewrite El. cbn [bind].
    assert (HPU : Permutation U (map as_key l)) by (rewrite (plain_list U Hpl); apply Permutation_map; assumption).
    assert (HkU : forall k, In k (map as_key l) <-> In k (map fst (probabilities A)) \/ In k (map fst (probabilities B))).
    { intros k. rewrite <- in_app_iff. rewrite <- (HU k : In k U <-> In k (map fst (probabilities A) ++ map fst (probabilities B))). split; apply Permutation_in; [apply Permutation_sym|]; assumption. }
    destruct (width str (map as_key l)) as [w|] eqn:Ew.
    2:{ exfalso. destruct l as [|x l]; [|cbn in Ew; discriminate]. apply Hne. destruct (probabilities A) as [|[k r] d] eqn:EA; [destruct (probabilities B) as [|[k r] d] eqn:EB; [reflexivity|]|].
        - exfalso. apply (proj2 (HkU k)). right. left. reflexivity.
        - exfalso. apply (proj2 (HkU k)). left. left. reflexivity. }
    cbn [bind]. destruct (width_ok _ _ Ew) as (_ & Hw).
    exists (Rule (4 + w + 3 + 8 + 3 + 8) :: flat_map (fun k => [Row (differ tolerance (pmf_p A [k]) (pmf_p B [k])) [rjust space w (str k); rjust space 8 (fmt (pmf_p A [k])); rjust space 8 (fmt (pmf_p B [k]))]; Rule (4 + w + 3 + 8 + 3 + 8)]) (map as_key l)), (map as_key l), w.
    split; [reflexivity|]. split; [eapply Permutation_NoDup; eassumption|]. split; [exact HkU|]. split; [|split].
    - clear -Hs. induction Hs as [|x l Hs IH Hf]; cbn [map]; constructor; [assumption|]. rewrite Forall_forall in *. intros k Hk. apply in_map_iff in Hk as (y & <- & Hy). rewrite !leaves_as_key. auto.
    - cbn [rows_of]. generalize (map as_key l). induction l0 as [|k l0 IH]; [reflexivity|]. cbn [flat_map app rows_of map]. rewrite IH. reflexivity.
    - intros Hf x [<-|Hx]; [cbn [shown_width]; lia|]. apply in_flat_map in Hx as (k & Hk & [<-|[<-|[]]]); cbn [shown_width fold_right]; rewrite ?rjust_length; auto; lia.
  Qed.

  Theorem C68_pmf_diff_refuses : forall A B,
    (probabilities A = [] -> probabilities B = [] -> pmf_diff space str fmt A B = Err ValueError) /\
    (plain_keys (probabilities A) -> plain_keys (probabilities B) -> ~ one_kind A B -> pmf_diff space str fmt A B = Err TypeError).
  Proof.
    intros A B. split.
    - intros EA EB. unfold pmf_diff. rewrite EA, EB. reflexivity.
    - intros PA PB Hk. unfold pmf_diff. set (U := as_set _). destruct (as_set_ok (keys_of (probabilities A) ++ keys_of (probabilities B))) as (HN & HU). fold U in HN, HU.
      assert (Hpl : forall k, In k U -> k = as_key (leaves k)).
      { intros k Hi. apply HU, in_app_iff in Hi as [Hi|Hi]; apply In_key in Hi as (r & Hr); [eapply PA|eapply PB]; eassumption. }
      rewrite (plain_list U Hpl), sort_mixed; [reflexivity|apply NoDup_leaves; assumption|].
      destruct (in_dec Bool.bool_dec true (map (fun p => negb (Bool.eqb (wide (leaves (fst p))) (wide (leaves (snd p))))) (list_prod U U))) as [Hm|Hm].
      + apply in_map_iff in Hm as ([u v] & E & Hin). cbn [fst snd] in E. apply in_prod_iff in Hin as (Hu & Hv). exists (leaves u), (leaves v). split; [apply in_map; assumption|]. split; [apply in_map; assumption|].
        intros E'. rewrite E', Bool.eqb_reflx in E. discriminate.
      + exfalso. apply Hk. intros x y Hx Hy. apply HU in Hx. apply HU in Hy. destruct (Bool.bool_dec (wide (leaves x)) (wide (leaves y))) as [E|E]; [assumption|]. exfalso. apply Hm. apply in_map_iff. exists (x, y). split; [|apply in_prod_iff; auto].
        cbn [fst snd]. destruct (Bool.eqb _ _) eqn:E'; [apply Bool.eqb_prop in E'; contradiction|reflexivity].
  Qed.
  (** equal tables have no red row; unequal ones with no red row differ only in keys stored with a
      number within the tolerance of zero *)
  Theorem C68_red_rows_and_equality : forall A B ls, plain_keys (probabilities A) -> NoDup (map fst (probabilities A)) -> plain_keys (probabilities B) -> NoDup (map fst (probabilities B)) ->
    one_kind A B -> pmf_diff space str fmt A B = Ok ls ->
    (pmf_eq tolerance A B = true -> forall b f, In (b, f) (rows_of ls) -> b = false) /\
    ((forall b f, In (b, f) (rows_of ls) -> b = false) -> pmf_eq tolerance A B = false ->
       exists k r, Rabs r <= tolerance /\ ((In (k, r) (probabilities A) /\ ~ In k (map fst (probabilities B))) \/ (In (k, r) (probabilities B) /\ ~ In k (map fst (probabilities A))))).
  Proof.
    intros A B ls PA NA PB NB Hkind E.
    assert (Hne : probabilities A ++ probabilities B <> []).
    { intros E0. apply app_eq_nil in E0 as (EA & EB). rewrite (proj1 (C68_pmf_diff_refuses A B) EA EB) in E. discriminate. }
    destruct (C68_pmf_diff_rows A B PA PB Hkind Hne) as (ls' & keys & w & E' & HN & HK & _ & HR & _). rewrite E in E'. injection E' as <-. rewrite HR.
    assert (Habs : forall P k, ~ In k (map fst (probabilities P)) -> k = as_key (leaves k) -> pmf_p P [k] = 0).
    { intros P k Hk Ek. unfold pmf_p. rewrite process_key. unfold leaves_list. cbn [flat_map]. rewrite app_nil_r, <- Ek. rewrite (proj2 (kassoc_None _ _) Hk). reflexivity. }
    split.
    - intros Heq b f Hin. apply pmf_eq_true in Heq as (H1 & H2). apply in_map_iff in Hin as (k & Ek & Hk). injection Ek as <- _. apply HK in Hk.
      assert (Hk' : In k (map fst (probabilities A))) by (destruct Hk as [Hk|Hk]; [assumption|apply H1; assumption]). specialize (H2 k Hk'). unfold tolerance in H2. destruct (Rgt_dec _ _); [lra|reflexivity].
    - intros Hno Hneq.
      assert (Hnum : forall k, In k keys -> Rabs (pmf_p A [k] - pmf_p B [k]) <= tolerance).
      { intros k Hk. specialize (Hno _ _ (in_map (fun k => (_, _)) _ _ Hk)). unfold tolerance. destruct (Rgt_dec _ _) as [?|Hn]; [discriminate|lra]. }
      destruct (same_key_set (keys_of (probabilities A)) (keys_of (probabilities B))) eqn:Es.
      + exfalso. assert (pmf_eq tolerance A B = true); [|congruence]. apply pmf_eq_true. split; [apply same_key_set_ok; exact Es|]. intros k Hk. apply Hnum, HK. auto.
      + unfold same_key_set in Es. apply andb_false_iff in Es as [Es|Es].
        * assert (Hx : exists k, In k (keys_of (probabilities A)) /\ has_key k (keys_of (probabilities B)) = false).
          { clear -Es. induction (keys_of (probabilities A)) as [|k l IH]; [discriminate|]. cbn [forallb] in Es. apply andb_false_iff in Es as [Es|Es]; [exists k; split; [left; reflexivity|assumption]|]. destruct (IH Es) as (k' & H1 & H2). exists k'. split; [right; assumption|assumption]. }
          destruct Hx as (k & Hk & Hk'). pose proof Hk as Hk0. apply In_key in Hk0 as (r & Hr).
          assert (Hnot : ~ In k (map fst (probabilities B))) by (intros Hc; apply has_key_In in Hc; unfold keys_of in Hk'; congruence).
          exists k, r. split; [|left; auto]. specialize (Hnum k (proj2 (HK k) (or_introl Hk))). rewrite (p_key A k r PA NA Hr), (Habs B k Hnot (PA _ _ Hr)), Rminus_0_r in Hnum. exact Hnum.
        * assert (Hx : exists k, In k (keys_of (probabilities B)) /\ has_key k (keys_of (probabilities A)) = false).
          { clear -Es. induction (keys_of (probabilities B)) as [|k l IH]; [discriminate|]. cbn [forallb] in Es. apply andb_false_iff in Es as [Es|Es]; [exists k; split; [left; reflexivity|assumption]|]. destruct (IH Es) as (k' & H1 & H2). exists k'. split; [right; assumption|assumption]. }
          destruct Hx as (k & Hk & Hk'). pose proof Hk as Hk0. apply In_key in Hk0 as (r & Hr).
          assert (Hnot : ~ In k (map fst (probabilities A))) by (intros Hc; apply has_key_In in Hc; unfold keys_of in Hk'; congruence).
          exists k, r. split; [|right; auto]. specialize (Hnum k (proj2 (HK k) (or_intror Hk))). rewrite (p_key B k r PB NB Hr), (Habs A k Hnot (PB _ _ Hr)), Rminus_0_l, Rabs_Ropp in Hnum. exact Hnum.
  Qed.

  (** cpmf_diff: a row for every condition and every value, in both cases those of either table *)
  Lemma sorted_union (L : list pyobj) : (forall k, In k L -> k = as_key (leaves k)) -> (forall x y, In x L -> In y L -> wide (leaves x) = wide (leaves y)) ->
    exists keys, sort_keys (as_set L) = Ok keys /\ NoDup keys /\ (forall k, In k keys <-> In k L) /\ StronglySorted (fun k k' => lex_lt (leaves k) (leaves k')) keys.
  Proof.
    intros Hpl Hw. destruct (as_set_ok L) as (HN & HU). set (U := as_set L) in *. assert (Hpl' : forall k, In k U -> k = as_key (leaves k)) by (intros k Hk; apply Hpl, HU, Hk).
    destruct (sort_keys_ok (map leaves U)) as (l & El & HP & Hs).
    { intros x y Hx Hy. apply in_map_iff in Hx as (kx & <- & Hx). apply in_map_iff in Hy as (ky & <- & Hy). apply Hw; apply HU; assumption. }
    { apply NoDup_leaves; assumption. }
    rewrite <- (plain_list U Hpl') in El. exists (map as_key l). assert (HPU : Permutation U (map as_key l)) by (rewrite (plain_list U Hpl'); apply Permutation_map; assumption).
    split; [assumption|]. split; [eapply Permutation_NoDup; eassumption|]. split.
    - intros k. rewrite <- (HU k). split; apply Permutation_in; [apply Permutation_sym|]; assumption.
    - clear -Hs. induction Hs as [|x l Hs IH Hf]; cbn [map]; constructor; [assumption|]. rewrite Forall_forall in *. intros k Hk. apply in_map_iff in Hk as (y & <- & Hy). rewrite !leaves_as_key. auto.
  Qed.
  Lemma rows_of_app l m : rows_of (l ++ m) = rows_of l ++ rows_of m.
  Proof. induction l as [|[n| |b f] l IH]; cbn [app rows_of]; [reflexivity|assumption|assumption|rewrite IH; reflexivity]. Qed.
  Theorem C68_cpmf_diff_rows : forall A B : cpmf,
    let conditions := map fst A ++ map fst B in
    (forall k, In k conditions -> k = as_key (leaves k)) -> (forall x y, In x conditions -> In y conditions -> wide (leaves x) = wide (leaves y)) ->
    let values := fun k => exists z, In z conditions /\ (In k (map fst (probabilities (given A [z]))) \/ In k (map fst (probabilities (given B [z])))) in
    (forall k, values k -> k = as_key (leaves k)) -> (forall x y, values x -> values y -> wide (leaves x) = wide (leaves y)) ->
    (exists k, values k) ->
    exists ls zs ks wz wk, cpmf_diff space str fmt A B = Ok ls /\
      NoDup zs /\ (forall z, In z zs <-> In z conditions) /\ StronglySorted (fun k k' => lex_lt (leaves k) (leaves k')) zs /\
      NoDup ks /\ (forall k, In k ks <-> values k) /\ StronglySorted (fun k k' => lex_lt (leaves k) (leaves k')) ks /\
      rows_of ls = flat_map (fun z => map (fun k => let a := pmf_p (given A [z]) [k] in let b := pmf_p (given B [z]) [k] in
                      (if Rgt_dec (Rabs (a - b)) (/ 10 ^ 10) then true else false,
                       [right_aligned wz (str z); right_aligned wk (str k); right_aligned 8 (fmt a); right_aligned 8 (fmt b)])) ks) zs /\
      ((forall r, (length (fmt r) <= 8)%nat) -> forall x, In x ls -> x = Blank \/ shown_width x = (29 + wz + wk)%nat).
  Proof.
    intros A B conditions Hc1 Hc2 values Hv1 Hv2 (k0 & Hk0). unfold cpmf_diff.
    destruct (sorted_union conditions Hc1 Hc2) as (zs & Ez & Nz & Kz & Sz). change (keys_of A ++ keys_of B) with conditions. rewrite Ez. cbn [bind].
    set (L := flat_map _ [A; B]).
    assert (HL : forall k, In k L <-> values k).
    { intros k. unfold L. cbn [flat_map]. rewrite app_nil_r, in_app_iff, !in_flat_map. unfold values. split.
      - intros [(z & Hz & Hk)|(z & Hz & Hk)]; exists z; (split; [apply Kz; assumption|]); auto.
      - intros (z & Hz & [Hk|Hk]); [left|right]; exists z; (split; [apply Kz; assumption|assumption]). }
    destruct (sorted_union L) as (ks & Ek & Nk & Kk & Sk).
    { intros k Hk. apply Hv1, HL, Hk. }
    { intros x y Hx Hy. apply Hv2; apply HL; assumption. }
    rewrite Ek. cbn [bind].
    destruct (width str zs) as [wz|] eqn:Ewz.
    2:{ exfalso. destruct zs as [|z zs]; [|discriminate]. destruct Hk0 as (z & Hz & _). apply (proj2 (Kz z)) in Hz. destruct Hz. }
    cbn [bind]. destruct (width str ks) as [wk|] eqn:Ewk.
    2:{ exfalso. destruct ks as [|k ks]; [|discriminate]. apply (proj2 (Kk k0)). apply HL. assumption. }
    cbn [bind]. destruct (width_ok _ _ Ewz) as (_ & Hwz). destruct (width_ok _ _ Ewk) as (_ & Hwk).
    eexists. exists zs, ks, wz, wk. split; [reflexivity|]. split; [assumption|]. split; [assumption|]. split; [assumption|]. split; [assumption|]. split; [intros k; rewrite Kk; apply HL|]. split; [assumption|]. split.
    - clear. induction zs as [|z zs IH]; [reflexivity|]. cbn [flat_map]. rewrite rows_of_app, IH. cbn [rows_of]. rewrite rows_of_app. cbn [rows_of]. rewrite app_nil_r.
      match goal with |- ?a ++ _ = ?b ++ _ => assert (E : a = b); [|rewrite E; reflexivity] end.
      clear IH. induction ks as [|k ks IHk]; [reflexivity|]. cbn [flat_map app rows_of map]. rewrite IHk. reflexivity.
    - intros Hf x Hx. apply in_flat_map in Hx as (z & Hz & [<-|Hx]); [right; cbn [shown_width]; lia|]. apply in_app_iff in Hx as [Hx|[<-|[]]]; [|auto]. right.
      apply in_flat_map in Hx as (k & Hk & [<-|[<-|[]]]); cbn [shown_width fold_right]; rewrite ?rjust_length; auto; lia.
  Qed.
End Printers.
Print Assumptions C68_cpmf_diff_rows.
Print Assumptions C68_pmf_diff_rows.
Print Assumptions C68_pmf_diff_refuses.
Print Assumptions C68_red_rows_and_equality.

Example C68_nonvacuous :
  (exists P Q, new_pmf (Simple {| vid := 3; insts := [0; 0; 1; 1]%Z; array := true; lazy := true |}) = Ok P /\
     new_pmf (Simple {| vid := 5; insts := [1; 0]%Z; array := false; lazy := false |}) = Ok Q /\ pmf_eq tolerance P Q = true) /\
  (exists P Q, new_pmf (Simple {| vid := 3; insts := [0; 0; 1; 1]%Z; array := true; lazy := true |}) = Ok P /\
     new_pmf (Simple {| vid := 5; insts := [0; 1; 1; 1]%Z; array := false; lazy := false |}) = Ok Q /\ pmf_eq tolerance P Q = false) /\
  one_kind (two_values (1 / 2)) (two_values (1 / 3)).
Proof.
  split; [|split].
  - set (v := Simple _). set (w := Simple _). destruct (C68_made_from_data v 4 w 2) as (P & Q & E1 & E2 & _); try reflexivity; try lia. exists P, Q. split; [assumption|]. split; [assumption|].
    apply (C68_exact_on_small_data v 4 w 2); try assumption; try reflexivity; try lia; [simpl; lra|].
    intros x. unfold matching, v, w. cbn [seq filter value_at insts nth]. repeat match goal with |- context [list_eq_dec ?d ?a x] => destruct (list_eq_dec d a x) end; cbn [length]; subst; try discriminate; lia.
  - set (v := Simple _). set (w := Simple _). destruct (C68_made_from_data v 4 w 4) as (P & Q & E1 & E2 & _); try reflexivity; try lia. exists P, Q. split; [assumption|]. split; [assumption|].
    destruct (pmf_eq _ _ _) eqn:E; [|reflexivity]. assert (H : forall x, (matching v 4 x * 4 = matching w 4 x * 4)%nat) by (apply (C68_exact_on_small_data v 4 w 4 P Q); try assumption; try reflexivity; try lia; simpl; lra).
    specialize (H [0%Z]). vm_compute in H. discriminate.
  - intros x y Hx Hy. cbn in Hx, Hy. intuition subst; reflexivity.
Qed.
