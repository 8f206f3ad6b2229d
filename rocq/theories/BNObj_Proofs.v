(** Proofs about the lifetime of a network object. *)
From Coq Require Import Reals.
From Verif Require Import Base Key_Model PMF_Model Graph_Model BN_Model BN_Order_Proofs BN_Final_Proofs BN_Sum_Proofs BNObj_Model.
Open Scope nat_scope.

(** ** association lists *)
Section Dict.
  Context {K V : Type} (eqb : K -> K -> bool) (ok : forall a b, eqb a b = true <-> a = b).
  Lemma d_refl a : eqb a a = true. Proof. apply ok. reflexivity. Qed.
  Lemma d_app k (d e : list (K * V)) : assoc eqb k (d ++ e) = match assoc eqb k d with Some v => Some v | None => assoc eqb k e end.
  Proof. induction d as [|[k' v] d IH]; [reflexivity|]. cbn. destruct (eqb k k'); [reflexivity | exact IH]. Qed.
  Lemma d_set k k' v (d : list (K * V)) : assoc eqb k (assoc_set eqb k' v d) = if eqb k k' then Some v else assoc eqb k d.
  Proof.
    induction d as [|[k1 v1] d IH]; cbn; [destruct (eqb k k'); reflexivity|].
    destruct (eqb k' k1) eqn:E.
    - apply ok in E; subst k1. cbn. destruct (eqb k k'); reflexivity.
    - cbn. rewrite IH. destruct (eqb k k1) eqn:E1; [|reflexivity]. destruct (eqb k k') eqn:E2; [|reflexivity].
      apply ok in E1, E2. subst. rewrite d_refl in E. discriminate.
  Qed.
End Dict.

Lemma memo_eqb_ok a b : memo_eqb a b = true <-> a = b.
Proof.
  destruct a as [[a1 a2] a3], b as [[b1 b2] b3]. unfold memo_eqb. cbn [fst snd].
  rewrite !Bool.andb_true_iff, !Nat.eqb_eq, key_eqb_ok. split; [intros ((-> & ->) & ->); reflexivity | intros H; inversion H; auto].
Qed.
Lemma form_eqb_ok a b : form_eqb a b = true <-> a = b.
Proof. destruct a, b; cbn; rewrite ?Bool.eqb_true_iff; split; intros H; try discriminate; try congruence; inversion H; reflexivity. Qed.
Lemma ids_eqb_ok a b : ids_eqb a b = true <-> a = b.
Proof.
  unfold ids_eqb. revert b; induction a as [|x a IH]; intros [|y b]; cbn; try (split; [discriminate | discriminate]); [split; reflexivity|].
  rewrite Bool.andb_true_iff, Nat.eqb_eq, IH. split; [intros [-> ->]; reflexivity | intros H; inversion H; auto].
Qed.

(** ** the cache of probability_of_value *)
(** every stored number is what the present tables say *)
Definition memo_sound (ns : list node) (m : memo) : Prop :=
  forall v x k r n, assoc memo_eqb (v, x, k) m = Some r -> find_node ns v = Some n -> probability_of_value n x k = Ok r.
Lemma memo_sound_nil ns : memo_sound ns []. Proof. intros v x k r n H. discriminate H. Qed.

Lemma cached_probability_sound ns m n v x k : memo_sound ns m -> find_node ns v = Some n ->
  fst (cached_probability n x k m) = probability_of_value n x k /\ memo_sound ns (snd (cached_probability n x k m)).
Proof.
  intros HS Hn. pose proof (find_node_In _ _ _ Hn) as [_ Hv]. unfold cached_probability. rewrite Hv.
  destruct (assoc memo_eqb (v, x, k) m) as [r|] eqn:E.
  - cbn. split; [symmetry; exact (HS _ _ _ _ _ E Hn) | exact HS].
  - destruct (probability_of_value n x k) as [r|e] eqn:EP; cbn; [|split; [reflexivity | exact HS]].
    split; [reflexivity|]. intros v' x' k' r' n' H Hn'. rewrite d_app in H.
    destruct (assoc memo_eqb (v', x', k') m) eqn:E'; [inversion H; subst; exact (HS _ _ _ _ _ E' Hn')|].
    cbn [assoc] in H. destruct (memo_eqb (v', x', k') (v, x, k)) eqn:EQ; [|discriminate].
    apply memo_eqb_ok in EQ. inversion EQ; subst. inversion H; subst. rewrite Hn in Hn'. inversion Hn'; subst. exact EP.
Qed.

Lemma fold_cached_sound {A B} ns (f : B -> A -> memo -> res B * memo) (g : B -> A -> res B) :
  forall l, (forall b a m, In a l -> memo_sound ns m -> fst (f b a m) = g b a /\ memo_sound ns (snd (f b a m))) ->
  forall b m, memo_sound ns m -> fst (fold_cached f l b m) = foldM g l b /\ memo_sound ns (snd (fold_cached f l b m)).
Proof.
  induction l as [|a l IH]; intros Hf b m Hm; [split; [reflexivity | exact Hm]|].
  cbn [fold_cached foldM]. destruct (Hf b a m (or_introl eq_refl) Hm) as [H1 H2].
  destruct (f b a m) as [[b'|e] m']; cbn [fst snd] in H1, H2; rewrite <- H1; cbn [bind].
  - apply IH; [intros; apply Hf; [right; assumption | assumption] | exact H2].
  - split; [reflexivity | exact H2].
Qed.

Lemma cached_joint_sound fuel : forall b ai vp cur p m, memo_sound (variable_nodes b) m ->
  fst (cached_joint_values fuel b ai vp cur p m) = joint_values fuel b ai vp cur p /\
  memo_sound (variable_nodes b) (snd (cached_joint_values fuel b ai vp cur p m)).
Proof.
  induction fuel as [|fuel IH]; intros b ai vp cur p m Hm; [split; [reflexivity | exact Hm]|].
  cbn [cached_joint_values joint_values]. destruct (length cur =? length (order_nodes b)); [split; [reflexivity | exact Hm]|].
  destruct (nth_error (order_nodes b) (length cur)) as [v|]; cbn [of_option bind]; [|split; [reflexivity | exact Hm]].
  unfold get_node. destruct (find_node (variable_nodes b) v) as [n|] eqn:En; cbn [of_option bind]; [|split; [reflexivity | exact Hm]].
  match goal with |- context [fold_cached ?f _ _ _] => match goal with |- context [foldM ?g _ _] =>
    pose proof (fold_cached_sound (variable_nodes b) f g (nvalues n)) as HF end end.
  destruct HF with (b := (vp, cur)) (m := m) as [H1 H2]; [|exact Hm|].
  - intros st value m1 _ Hm1. cbn beta. destruct (conditioning_values n (snd st)) as [cv|e]; cbn [bind]; [|split; [reflexivity | exact Hm1]].
    cbv zeta.
    assert (HH : forall k, fst (match cached_probability n value k m1 with (Err e, m') => (Err e, m') | (Ok q, m') => cached_joint_values fuel b ai (fst st) (assoc_set Nat.eqb (nname n) value (snd st)) (p * q)%R m' end)
        = (q <- probability_of_value n value k ;; joint_values fuel b ai (fst st) (assoc_set Nat.eqb (nname n) value (snd st)) (p * q)%R) /\
      memo_sound (variable_nodes b) (snd (match cached_probability n value k m1 with (Err e, m') => (Err e, m') | (Ok q, m') => cached_joint_values fuel b ai (fst st) (assoc_set Nat.eqb (nname n) value (snd st)) (p * q)%R m' end))).
    { intros k. destruct (cached_probability_sound _ m1 n v value k Hm1 En) as [P1 P2].
      destruct (cached_probability n value k m1) as [[q|e] m2]; cbn [fst snd] in P1, P2; rewrite <- P1; cbn [bind].
      + apply IH; exact P2.
      + split; [reflexivity | exact P2]. }
    destruct cv as [|c cv]; apply HH.
  - destruct (fold_cached _ (nvalues n) (vp, cur) m) as [[st|e] m']; cbn [fst snd] in H1, H2; rewrite <- H1; cbn [bind fst snd]; split; (reflexivity || exact H2).
Qed.
Lemma cached_joint_pmf_sound fuel b ai m : memo_sound (variable_nodes b) m ->
  fst (cached_joint_pmf fuel b ai m) = create_joint_pmf fuel b ai /\ memo_sound (variable_nodes b) (snd (cached_joint_pmf fuel b ai m)).
Proof.
  intros Hm. unfold cached_joint_pmf, create_joint_pmf, guarded. destruct (finalized b); [|split; [reflexivity | exact Hm]].
  destruct (cached_joint_sound fuel b ai [] [] 1%R m Hm) as [H1 H2].
  destruct (cached_joint_values fuel b ai [] [] 1%R m) as [[st|e] m']; cbn [fst snd] in H1, H2; rewrite <- H1; split; (reflexivity || exact H2).
Qed.

(** ** sharing of tables *)
Definition same_probs (src : list node) (n : node) : Prop := forall s, find_node src (nname n) = Some s -> nprobs s = nprobs n.
Lemma with_probs_id n : with_probs n (nprobs n) = n. Proof. destruct n; reflexivity. Qed.
Lemma overlay_id src ns : (forall n, In n ns -> same_probs src n) -> overlay src ns = ns.
Proof.
  intros H. unfold overlay. rewrite <- (map_id ns) at 2. apply map_ext_in. intros n Hn. destruct (find_node src (nname n)) as [s|] eqn:E; [|reflexivity].
  rewrite (H n Hn s E). apply with_probs_id.
Qed.
Lemma refreeze_id names ns : NoDup (map nname ns) -> refreeze names ns ns = ns.
Proof.
  intros H. unfold refreeze. transitivity (map (fun n => n) ns); [|apply map_id]. apply map_ext_in. intros n Hn.
  destruct (mem (nname n) names); [|reflexivity]. rewrite (find_node_self ns n H Hn). apply with_probs_id.
Qed.
Lemma with_nodes_id b : with_nodes b (variable_nodes b) = b. Proof. destruct b; reflexivity. Qed.

Lemma assign_IDs_probs : forall l b b', foldM assign_ID l b = Ok b' ->
  forall n', In n' (variable_nodes b') -> exists n, In n (variable_nodes b) /\ nname n' = nname n /\ nprobs n' = nprobs n.
Proof.
  induction l as [|iv l IH]; intros b b' H; cbn [foldM] in H; [inversion H; subst; eauto|].
  apply bind_ok in H as (b1 & H1 & H). unfold assign_ID in H1. apply bind_ok in H1 as (n0 & _ & H1). inversion H1; subst b1; clear H1.
  intros n' Hn'. destruct (IH _ _ H n' Hn') as (n1 & Hin & E1 & E2). cbn [variable_nodes] in Hin. apply in_map_iff in Hin as (m & Em & Hm).
  exists m. split; [exact Hm|]. destruct (nname m =? snd iv); subst n1; cbn in E1, E2; auto.
Qed.
Lemma finalize_probs fuel ns b : finalize fuel (new_bn ns) = Ok b ->
  forall n', In n' (variable_nodes b) -> exists n, In n ns /\ nname n' = nname n /\ nprobs n' = nprobs n.
Proof.
  unfold finalize. intros H n' Hn'. apply bind_ok in H as (? & _ & H). apply bind_ok in H as (ord & _ & H). apply bind_ok in H as (? & _ & H).
  apply bind_ok in H as (b' & Hb' & H). inversion H; subst b. cbn [variable_nodes] in Hn'. exact (assign_IDs_probs _ _ _ Hb' n' Hn').
Qed.
Lemma get_subnetwork_nodes fuel b ids : get_subnetwork fuel b ids = (ns <- subnetwork_nodes fuel b ids ;; finalize fuel (new_bn ns)).
Proof.
  unfold get_subnetwork, subnetwork_nodes. destruct (get_nodes_by_ID b ids) as [l|e]; [|reflexivity]. cbn [bind].
  destruct (get_subnetwork_node_IDs fuel b l); reflexivity.
Qed.
Lemma subnetwork_nodes_in fuel b ids ns : subnetwork_nodes fuel b ids = Ok ns -> forall n, In n ns -> find_node (variable_nodes b) (nname n) = Some n.
Proof.
  intros H n Hn. unfold subnetwork_nodes in H. apply bind_ok in H as (l & _ & H). apply bind_ok in H as (l' & _ & H).
  apply mapM_Forall2 in H. clear l. induction H as [|i y l' ys Hi HF IH]; [destruct Hn|]. destruct Hn as [<- | Hn]; [|auto].
  apply bind_ok in Hi as (v & _ & Hi). unfold get_node in Hi. destruct (find_node (variable_nodes b) v) as [m|] eqn:E; [|discriminate]. inversion Hi; subst m.
  pose proof (find_node_In _ _ _ E) as [_ <-]. exact E.
Qed.
Lemma sub_overlay fuel b ids s : get_subnetwork fuel b ids = Ok s -> overlay (variable_nodes b) (variable_nodes s) = variable_nodes s.
Proof.
  rewrite get_subnetwork_nodes. intros H. apply bind_ok in H as (ns & H1 & H2). apply overlay_id. intros n' Hn' t Ht.
  destruct (finalize_probs _ _ _ H2 n' Hn') as (n & Hn & E1 & E2). rewrite E1 in Ht. rewrite (subnetwork_nodes_in _ _ _ _ H1 n Hn) in Ht. inversion Ht; subst. auto.
Qed.

(** ** histories without edits *)
Section Quiet.
  Variable (iterate : list Z -> list Z) (fuel : nat) (b : bn).
  Hypothesis nodup : NoDup (map nname (variable_nodes b)).

  Definition points (o : obj) (r : nat) (P : pmf) : Prop := nth_error (heap o) r = Some P.
  Record quiet (o : obj) : Prop := {
    q_net : net o = b;
    q_memo : memo_sound (variable_nodes b) (pov_memo o);
    q_joint : forall f r, assoc form_eqb f (joints o) = Some r -> exists P, create_joint_pmf fuel b (form_flag f) = Ok P /\ points o r P;
    q_sub : forall ids s, assoc ids_eqb ids (subs o) = Some s ->
      get_subnetwork fuel b ids = Ok (sub_net s) /\ memo_sound (variable_nodes (sub_net s)) (sub_memo s) /\
      forall r, sub_joint s = Some r -> exists P, create_joint_pmf fuel (sub_net s) true = Ok P /\ points o r P;
    q_partial : forall ids r, assoc ids_eqb ids (partials o) = Some r -> exists P, create_partial_joint_pmf iterate fuel b ids = Ok P /\ points o r P }.

  Definition grows (o o' : obj) : Prop := (exists l, heap o' = heap o ++ l) /\ (frozen o = variable_nodes b -> frozen o' = variable_nodes b).
  Lemma grows_refl o : grows o o. Proof. split; [exists []; rewrite app_nil_r; reflexivity | auto]. Qed.
  Lemma grows_trans o1 o2 o3 : grows o1 o2 -> grows o2 o3 -> grows o1 o3.
  Proof. intros [[l H] F] [[l' H'] F']. split; [exists (l ++ l'); rewrite H', H, app_assoc; reflexivity | auto]. Qed.
  Lemma points_grow o o' r P : grows o o' -> points o r P -> points o' r P.
  Proof. intros [[l H] _]. unfold points. rewrite H. intros E. rewrite nth_error_app1; [exact E | apply nth_error_Some; congruence]. Qed.
  Lemma points_new o o' P : heap o' = heap o ++ [P] -> points o' (length (heap o)) P.
  Proof. intros H. unfold points. rewrite H, nth_error_app2, Nat.sub_diag by lia. reflexivity. Qed.

  Lemma quiet_subnetwork o ids : quiet o ->
    let '(x, o') := ask_subnetwork fuel o ids in
    quiet o' /\ grows o o' /\
    match x with
    | Ok s => get_subnetwork fuel b ids = Ok (sub_net s) /\ assoc ids_eqb ids (subs o') = Some s
    | Err e => get_subnetwork fuel b ids = Err e
    end.
  Proof.
    intros Q. unfold ask_subnetwork. destruct (assoc ids_eqb ids (subs o)) as [s|] eqn:E.
    - split; [exact Q|]. split; [apply grows_refl|]. split; [apply (q_sub o Q ids s E) | exact E].
    - rewrite (q_net o Q), get_subnetwork_nodes. destruct (subnetwork_nodes fuel b ids) as [ns|e] eqn:EN; cbn [bind]; [|split; [exact Q | split; [apply grows_refl | reflexivity]]].
      assert (HG : frozen o = variable_nodes b -> refreeze (refrozen ns ns) (variable_nodes b) (frozen o) = variable_nodes b)
        by (intros ->; apply refreeze_id; exact nodup).
      destruct (finalize fuel (new_bn ns)) as [s|e] eqn:EF; cbn [bind].
      + split; [|split; [split; [exists []; rewrite app_nil_r; reflexivity | exact HG] |]].
        * destruct Q as [Q1 Q2 Q3 Q4 Q5]. constructor; try assumption; try reflexivity.
          cbn [subs]. intros i s' H. rewrite (d_set _ ids_eqb_ok) in H. destruct (ids_eqb i ids) eqn:EI.
          -- apply ids_eqb_ok in EI; subst i. inversion H; subst s'. cbn. rewrite get_subnetwork_nodes, EN. cbn [bind]. split; [exact EF|]. split; [apply memo_sound_nil | discriminate].
          -- exact (Q4 i s' H).
        * cbn [sub_net subs]. rewrite (d_set _ ids_eqb_ok). rewrite (d_refl _ ids_eqb_ok). split; reflexivity.
      + split; [|split; [split; [exists []; rewrite app_nil_r; reflexivity | exact HG] | reflexivity]].
        destruct Q as [Q1 Q2 Q3 Q4 Q5]. constructor; try assumption; try reflexivity.
  Qed.

  Lemma quiet_sub_joint o ids s : quiet o -> assoc ids_eqb ids (subs o) = Some s ->
    let '(x, o') := ask_sub_joint fuel o ids s in
    quiet o' /\ grows o o' /\
    match x with
    | Ok r => exists P, create_joint_pmf fuel (sub_net s) true = Ok P /\ points o' r P
    | Err e => create_joint_pmf fuel (sub_net s) true = Err e
    end.
  Proof.
    intros Q Hs. destruct (q_sub o Q ids s Hs) as (S1 & S2 & S3). unfold ask_sub_joint. destruct (sub_joint s) as [r|] eqn:EJ.
    - split; [exact Q|]. split; [apply grows_refl | exact (S3 r eq_refl)].
    - assert (HN : sub_now o s = sub_net s) by (unfold sub_now; rewrite (q_net o Q), (sub_overlay _ _ _ _ S1); apply with_nodes_id).
      rewrite HN. destruct (cached_joint_pmf_sound fuel (sub_net s) true (sub_memo s) S2) as [J1 J2].
      destruct (cached_joint_pmf fuel (sub_net s) true (sub_memo s)) as [[P|e] m]; cbn [fst snd] in J1, J2.
      + assert (G : grows o {| net := net o; frozen := frozen o; pov_memo := pov_memo o; joints := joints o;
         subs := assoc_set ids_eqb ids {| sub_net := sub_net s; sub_memo := m; sub_joint := Some (length (heap o)) |} (subs o);
         partials := partials o; heap := heap o ++ [P] |}) by (split; [exists [P]; reflexivity | auto]).
        split; [|split; [exact G|]].
        * destruct Q as [Q1 Q2 Q3 Q4 Q5]. constructor; try assumption; try reflexivity.
          -- intros f r H. destruct (Q3 f r H) as (P' & E & H'). exists P'. split; [exact E | exact (points_grow _ _ _ _ G H')].
          -- intros i s' H. cbn [subs] in H. rewrite (d_set _ ids_eqb_ok) in H. destruct (ids_eqb i ids) eqn:EI.
             ++ apply ids_eqb_ok in EI; subst i. inversion H; subst s'. cbn. split; [exact S1|]. split; [exact J2|]. intros r Hr. inversion Hr; subst r.
                exists P. split; [auto | apply points_new; reflexivity].
             ++ destruct (Q4 i s' H) as (T1 & T2 & T3). split; [exact T1|]. split; [exact T2|]. intros r Hr. destruct (T3 r Hr) as (P' & E & H').
                exists P'. split; [exact E | exact (points_grow _ _ _ _ G H')].
          -- intros i r H. destruct (Q5 i r H) as (P' & E & H'). exists P'. split; [exact E | exact (points_grow _ _ _ _ G H')].
        * exists P. split; [auto | apply points_new; reflexivity].
      + split; [|split; [split; [exists []; rewrite app_nil_r; reflexivity | auto] | auto]].
        destruct Q as [Q1 Q2 Q3 Q4 Q5]. constructor; try assumption; try reflexivity.
        intros i s' H. cbn [subs] in H. rewrite (d_set _ ids_eqb_ok) in H. destruct (ids_eqb i ids) eqn:EI.
        * apply ids_eqb_ok in EI; subst i. inversion H; subst s'. cbn. split; [exact S1|]. split; [exact J2 | discriminate].
        * exact (Q4 i s' H).
  Qed.

  Lemma points_content o r P : points o r P -> content o r = P.
  Proof. intros H. unfold content. apply nth_error_nth. exact H. Qed.

  Lemma quiet_partial o ids : quiet o ->
    let '(x, o') := ask_partial iterate fuel o ids in
    quiet o' /\ grows o o' /\
    match x with
    | Ok r => exists P, create_partial_joint_pmf iterate fuel b ids = Ok P /\ points o' r P
    | Err e => create_partial_joint_pmf iterate fuel b ids = Err e
    end.
  Proof.
    intros Q. unfold ask_partial. destruct (assoc ids_eqb ids (partials o)) as [r|] eqn:E.
    - split; [exact Q|]. split; [apply grows_refl | exact (q_partial o Q ids r E)].
    - unfold create_partial_joint_pmf, guarded. rewrite (q_net o Q). destruct (finalized b); [|split; [exact Q | split; [apply grows_refl | reflexivity]]].
      pose proof (quiet_subnetwork o ids Q) as HS. destruct (ask_subnetwork fuel o ids) as [[s|e] o1].
      2: { destruct HS as (Q1 & G1 & H). rewrite H. auto. }
      destruct HS as (Q1 & G1 & S1 & S2). rewrite S1. cbn [bind].
      pose proof (quiet_sub_joint o1 ids s Q1 S2) as HJ. destruct (ask_sub_joint fuel o1 ids s) as [[r|e] o2].
      2: { destruct HJ as (Q2 & G2 & H). rewrite H. split; [exact Q2 | split; [eapply grows_trans; eassumption | reflexivity]]. }
      destruct HJ as (Q2 & G2 & P & J1 & J2). rewrite J1. cbn [bind]. rewrite (points_content _ _ _ J2).
      assert (KEEP : forall o', net o' = b -> pov_memo o' = pov_memo o2 -> joints o' = joints o2 -> subs o' = subs o2 -> grows o2 o' ->
        (forall i r', assoc ids_eqb i (partials o') = Some r' -> assoc ids_eqb i (partials o2) = Some r' \/ (i = ids /\ exists P', create_partial_joint_pmf iterate fuel b ids = Ok P' /\ points o' r' P')) -> quiet o').
      { intros o' E1 E2 E3 E4 G HP. destruct Q2 as [A1 A2 A3 A4 A5]. constructor.
        - exact E1.
        - rewrite E2; exact A2.
        - rewrite E3. intros f r' H. destruct (A3 f r' H) as (P' & H1 & H2). exists P'. split; [exact H1 | exact (points_grow _ _ _ _ G H2)].
        - rewrite E4. intros i s' H. destruct (A4 i s' H) as (T1 & T2 & T3). split; [exact T1|]. split; [exact T2|]. intros r' Hr. destruct (T3 r' Hr) as (P' & H1 & H2).
          exists P'. split; [exact H1 | exact (points_grow _ _ _ _ G H2)].
        - intros i r' H. destruct (HP i r' H) as [H1 | [-> H1]]; [|exact H1]. destruct (A5 i r' H1) as (P' & H2 & H3). exists P'. split; [exact H2 | exact (points_grow _ _ _ _ G H3)]. }
      assert (PART : create_partial_joint_pmf iterate fuel b ids = foldM sum_over (iterate (filter (fun i => negb (existsb (Z.eqb i) (map Z.of_nat ids))) (variableIDs P))) P \/ finalized b = false).
      { unfold create_partial_joint_pmf, guarded. rewrite S1. cbn [bind]. rewrite J1. cbn [bind]. destruct (finalized b); auto. }
      assert (FIN : finalized b = true -> create_partial_joint_pmf iterate fuel b ids = foldM sum_over (iterate (filter (fun i => negb (existsb (Z.eqb i) (map Z.of_nat ids))) (variableIDs P))) P).
      { intros F. destruct PART as [|F']; [assumption | congruence]. }
      clear PART.
      assert (FB : finalized b = true).
      { clear -S1. rewrite get_subnetwork_nodes in S1. apply bind_ok in S1 as (ns & S1 & _). unfold subnetwork_nodes in S1. apply bind_ok in S1 as (l & S1 & _).
        unfold get_nodes_by_ID, guarded in S1. destruct (finalized b); [reflexivity | discriminate]. }
      specialize (FIN FB).
      destruct (iterate (filter (fun i => negb (existsb (Z.eqb i) (map Z.of_nat ids))) (variableIDs P))) as [|z over] eqn:EI.
      + cbn [foldM] in FIN |- *. set (o' := {| net := _ |}). assert (G3 : grows o2 o') by (split; [exists []; rewrite app_nil_r; reflexivity | auto]).
        split; [|split; [eapply grows_trans; [exact G1 | eapply grows_trans; [exact G2 | exact G3]] | exists P; split; [reflexivity | exact (points_grow _ _ _ _ G3 J2)]]].
        apply KEEP; try reflexivity; [exact (q_net _ Q2) | exact G3 |].
        intros i r' H. cbn [partials o'] in H. rewrite d_app in H. destruct (assoc ids_eqb i (partials o2)) eqn:EA; [left; congruence | right].
        cbn [assoc] in H. destruct (ids_eqb i ids) eqn:Ei; [|discriminate]. apply ids_eqb_ok in Ei. inversion H; subst r'. split; [exact Ei|]. exists P. split; [exact FIN | exact (points_grow _ _ _ _ G3 J2)].
      + destruct (foldM sum_over (z :: over) P) as [R|e] eqn:ES.
        * set (o' := {| net := _ |}). assert (G3 : grows o2 o') by (split; [exists [R]; reflexivity | auto]).
          assert (PN : points o' (length (heap o2)) R) by (apply points_new; reflexivity).
          split; [|split; [eapply grows_trans; [exact G1 | eapply grows_trans; [exact G2 | exact G3]] | exists R; split; [reflexivity | exact PN]]].
          apply KEEP; try reflexivity; [exact (q_net _ Q2) | exact G3 |].
          intros i r' H. cbn [partials o'] in H. rewrite d_app in H. destruct (assoc ids_eqb i (partials o2)) eqn:EA; [left; congruence | right].
          cbn [assoc] in H. destruct (ids_eqb i ids) eqn:Ei; [|discriminate]. apply ids_eqb_ok in Ei. inversion H; subst r'. split; [exact Ei|]. exists R. split; [exact FIN | exact PN].
        * split; [exact Q2 | split; [eapply grows_trans; eassumption | reflexivity]].
  Qed.

  Lemma quiet_joint o f : quiet o ->
    let '(x, o') := ask_joint fuel o f in
    quiet o' /\ grows o o' /\
    match x with
    | Ok r => exists P, create_joint_pmf fuel b (form_flag f) = Ok P /\ points o' r P
    | Err e => create_joint_pmf fuel b (form_flag f) = Err e
    end.
  Proof.
    intros Q. unfold ask_joint. destruct (assoc form_eqb f (joints o)) as [r|] eqn:E.
    - split; [exact Q|]. split; [apply grows_refl | exact (q_joint o Q f r E)].
    - rewrite (q_net o Q). destruct (cached_joint_pmf_sound fuel b (form_flag f) (pov_memo o) (q_memo o Q)) as [J1 J2].
      destruct (cached_joint_pmf fuel b (form_flag f) (pov_memo o)) as [[P|e] m]; cbn [fst snd] in J1, J2.
      + set (o' := {| net := _ |}). assert (G : grows o o') by (split; [exists [P]; reflexivity | auto]).
        assert (PN : points o' (length (heap o)) P) by (apply points_new; reflexivity).
        split; [|split; [exact G | exists P; auto]].
        destruct Q as [Q1 Q2 Q3 Q4 Q5]. constructor; cbn [net pov_memo joints subs partials o']; try assumption.
        * reflexivity.
        * intros f' r H. rewrite d_app in H. destruct (assoc form_eqb f' (joints o)) eqn:EA.
          -- inversion H; subst r. destruct (Q3 f' n EA) as (P' & H1 & H2). exists P'. split; [exact H1 | exact (points_grow _ _ _ _ G H2)].
          -- cbn [assoc] in H. destruct (form_eqb f' f) eqn:Ef; [|discriminate]. apply form_eqb_ok in Ef; subst f'. inversion H; subst r. exists P. auto.
        * intros i s' H. destruct (Q4 i s' H) as (T1 & T2 & T3). split; [exact T1|]. split; [exact T2|]. intros r' Hr. destruct (T3 r' Hr) as (P' & H1 & H2).
          exists P'. split; [exact H1 | exact (points_grow _ _ _ _ G H2)].
        * intros i r H. destruct (Q5 i r H) as (P' & H1 & H2). exists P'. split; [exact H1 | exact (points_grow _ _ _ _ G H2)].
      + split; [|split; [split; [exists []; rewrite app_nil_r; reflexivity | auto] | auto]].
        destruct Q as [Q1 Q2 Q3 Q4 Q5]. constructor; cbn [net pov_memo joints subs partials]; try assumption. reflexivity.
  Qed.

  Lemma quiet_probability o v x k : quiet o ->
    let '(y, o') := ask_probability o v x k in
    quiet o' /\ grows o o' /\ y = (n <- get_node (variable_nodes b) v ;; probability_of_value n x k).
  Proof.
    intros Q. unfold ask_probability. rewrite (q_net o Q). unfold get_node. destruct (find_node (variable_nodes b) v) as [n|] eqn:En; cbn [of_option bind].
    - destruct (cached_probability_sound _ (pov_memo o) n v x k (q_memo o Q) En) as [P1 P2].
      destruct (cached_probability n x k (pov_memo o)) as [y m]. cbn [fst snd] in P1, P2.
      split; [|split; [split; [exists []; rewrite app_nil_r; reflexivity | auto] | exact P1]].
      destruct Q as [Q1 Q2 Q3 Q4 Q5]. constructor; cbn [net pov_memo joints subs partials]; try assumption. reflexivity.
    - split; [exact Q | split; [apply grows_refl | reflexivity]].
  Qed.
End Quiet.

(** ** what a kept number decides *)
Definition extends (m m' : memo) : Prop := forall k r, assoc memo_eqb k m = Some r -> assoc memo_eqb k m' = Some r.
Lemma extends_refl m : extends m m. Proof. intros k r H; exact H. Qed.
Lemma extends_trans a b c : extends a b -> extends b c -> extends a c. Proof. intros H1 H2 k r H. auto. Qed.
Lemma cached_probability_extends n x k m : extends m (snd (cached_probability n x k m)).
Proof.
  unfold cached_probability. destruct (assoc memo_eqb (nname n, x, k) m); [apply extends_refl|].
  destruct (probability_of_value n x k); [|apply extends_refl]. intros k' r' H. cbn. rewrite d_app, H. reflexivity.
Qed.
Lemma cached_probability_stored n x k m q m' : cached_probability n x k m = (Ok q, m') -> assoc memo_eqb (nname n, x, k) m' = Some q.
Proof.
  unfold cached_probability. destruct (assoc memo_eqb (nname n, x, k) m) eqn:E; [intros H; inversion H; subst; exact E|].
  destruct (probability_of_value n x k); intros H; inversion H; subst. rewrite d_app, E. cbn [assoc]. rewrite (d_refl _ memo_eqb_ok). reflexivity.
Qed.
Lemma cached_probability_hit n x k m q : assoc memo_eqb (nname n, x, k) m = Some q -> cached_probability n x k m = (Ok q, m).
Proof. intros H. unfold cached_probability. rewrite H. reflexivity. Qed.
Lemma fold_cached_extends {A B} (f : B -> A -> memo -> res B * memo) :
  (forall b a m, extends m (snd (f b a m))) -> forall l b m, extends m (snd (fold_cached f l b m)).
Proof.
  intros Hf. induction l as [|a l IH]; intros b m; [apply extends_refl|]. cbn [fold_cached]. specialize (Hf b a m).
  destruct (f b a m) as [[b'|e] m']; [|exact Hf]. eapply extends_trans; [exact Hf | apply IH].
Qed.

(** the body of the loop over the values of a variable *)
Definition body (fuel : nat) (b : bn) (ai : bool) (n : node) (p : R) (st : list (pyobj * R) * sample) (value : nat) (m : memo) : res (list (pyobj * R) * sample) * memo :=
  match conditioning_values n (snd st) with
  | Err e => (Err e, m)
  | Ok cv =>
    match cached_probability n value (cond_key cv) m with
    | (Err e, m') => (Err e, m')
    | (Ok q, m') => cached_joint_values fuel b ai (fst st) (assoc_set Nat.eqb (nname n) value (snd st)) (p * q)%R m'
    end
  end.
Lemma cached_joint_S fuel b ai vp cur p m : cached_joint_values (S fuel) b ai vp cur p m =
  if length cur =? length (order_nodes b) then
    (cur' <- (if ai then sample_values_to_indices b cur else Ok cur) ;; l <- sample_as_list b cur' ;; Ok (assoc_set pyobj_eqb (tuple_key l) p vp, cur), m)
  else
    match (v <- of_option IndexError (nth_error (order_nodes b) (length cur)) ;; get_node (variable_nodes b) v) with
    | Err e => (Err e, m)
    | Ok n => match fold_cached (body fuel b ai n p) (nvalues n) (vp, cur) m with
              | (Err e, m') => (Err e, m')
              | (Ok st, m') => (cur' <- sdel (nname n) (snd st) ;; Ok (fst st, cur'), m')
              end
    end.
Proof. reflexivity. Qed.

Lemma cached_joint_extends fuel : forall b ai vp cur p m, extends m (snd (cached_joint_values fuel b ai vp cur p m)).
Proof.
  induction fuel as [|fuel IH]; intros b ai vp cur p m; [apply extends_refl|]. rewrite cached_joint_S.
  destruct (length cur =? length (order_nodes b)); [apply extends_refl|].
  destruct (nth_error (order_nodes b) (length cur)) as [v|]; cbn [of_option bind]; [|apply extends_refl].
  destruct (get_node (variable_nodes b) v) as [n|e]; [|apply extends_refl].
  pose proof (fold_cached_extends (body fuel b ai n p)) as HF.
  assert (HB : forall st a m, extends m (snd (body fuel b ai n p st a m))).
  { intros st a m1. unfold body. destruct (conditioning_values n (snd st)) as [cv|e]; [|apply extends_refl].
    pose proof (cached_probability_extends n a (cond_key cv) m1) as HP.
    destruct (cached_probability n a (cond_key cv) m1) as [[q|e] m2]; [|exact HP]. eapply extends_trans; [exact HP | apply IH]. }
  specialize (HF HB (nvalues n) (vp, cur) m). destruct (fold_cached (body fuel b ai n p) (nvalues n) (vp, cur) m) as [[st|e] m']; exact HF.
Qed.

(** the same network with other tables *)
Definition keeps_node (g : node -> node) : Prop := forall n, nname (g n) = nname n /\ nvalues (g n) = nvalues n /\ nparents (g n) = nparents n /\ nID (g n) = nID n.
Definition same_structure (b b' : bn) : Prop := exists g, keeps_node g /\ b' = with_nodes b (map g (variable_nodes b)).
Lemma same_structure_refl b : same_structure b b.
Proof. exists (fun n => n). split; [intros n; auto|]. rewrite map_id, with_nodes_id. reflexivity. Qed.
Lemma same_structure_trans a b c : same_structure a b -> same_structure b c -> same_structure a c.
Proof.
  intros (g & Hg & ->) (h & Hh & ->). exists (fun n => h (g n)). split.
  - intros n. destruct (Hg n) as (A1 & A2 & A3 & A4), (Hh (g n)) as (B1 & B2 & B3 & B4). rewrite B1, B2, B3, B4. auto.
  - cbn. rewrite map_map. reflexivity.
Qed.
Lemma structure_find b b' v : same_structure b b' -> exists g, keeps_node g /\ find_node (variable_nodes b') v = option_map g (find_node (variable_nodes b) v).
Proof. intros (g & Hg & ->). exists g. split; [exact Hg|]. cbn. apply find_node_map. intros n. apply Hg. Qed.
Lemma structure_names b b' : same_structure b b' -> names_cache b' = names_cache b /\ map nname (variable_nodes b') = map nname (variable_nodes b) /\ order_nodes b' = order_nodes b /\ finalized b' = finalized b /\ bn_IDs b' = bn_IDs b.
Proof. intros (g & Hg & ->). cbn. rewrite map_map. repeat split; auto. apply map_ext. intros n. apply Hg. Qed.
Lemma structure_leaf b b' (ai : bool) (cur : sample) (p : R) (vp : list (pyobj * R)) : same_structure b b' ->
  (cur' <- (if ai then sample_values_to_indices b' cur else Ok cur) ;; l <- sample_as_list b' cur' ;; Ok (assoc_set pyobj_eqb (tuple_key l) p vp, cur)) =
  (cur' <- (if ai then sample_values_to_indices b cur else Ok cur) ;; l <- sample_as_list b cur' ;; Ok (assoc_set pyobj_eqb (tuple_key l) p vp, cur)).
Proof.
  intros HS. destruct (structure_names _ _ HS) as (N1 & N2 & _ & N3 & _).
  assert (E1 : sample_values_to_indices b' cur = sample_values_to_indices b cur).
  { unfold sample_values_to_indices. induction cur as [|kv cur IH]; [reflexivity|]. cbn [mapM]. rewrite IH.
    destruct (structure_find _ _ (fst kv) HS) as (g & Hg & E). unfold get_node. rewrite E. destruct (find_node (variable_nodes b) (fst kv)) as [n|]; [|reflexivity].
    cbn [option_map of_option bind]. destruct (Hg n) as (_ & -> & _ & _). reflexivity. }
  assert (E2 : forall s, sample_as_list b' s = sample_as_list b s).
  { intros s. unfold sample_as_list, guarded, variable_node_names. rewrite N1, N2, N3. reflexivity. }
  rewrite E1. destruct ai; [destruct (sample_values_to_indices b cur); [|reflexivity]|]; cbn [bind]; rewrite E2; reflexivity.
Qed.

Definition hits (fuel : nat) (b : bn) (cur cur' : sample) (m' : memo) : Prop :=
  forall b' ai' vp2 p2 m2, same_structure b b' -> extends m' m2 ->
    cached_joint_values fuel b' ai' vp2 cur p2 m2 = (fst (cached_joint_values fuel b ai' vp2 cur p2 m'), m2) /\
    (forall x c, fst (cached_joint_values fuel b ai' vp2 cur p2 m') = Ok (x, c) -> c = cur').

Lemma joint_hits fuel : forall b ai vp cur p m vp' cur' m',
  cached_joint_values fuel b ai vp cur p m = (Ok (vp', cur'), m') -> hits fuel b cur cur' m'.
Proof.
  induction fuel as [|fuel IH]; intros b ai vp cur p m vp' cur' m' H; [discriminate H|].
  rewrite cached_joint_S in H. intros b' ai' vp2 p2 m2 HS HE. rewrite !cached_joint_S.
  destruct (structure_names _ _ HS) as (_ & _ & -> & _). destruct (length cur =? length (order_nodes b)).
  - injection H as H1 H2. subst m'. rewrite (structure_leaf b b' ai' cur p2 vp2 HS). cbn [fst]. split; [reflexivity|].
    intros x c HX. apply bind_ok in HX as (? & _ & HX). apply bind_ok in HX as (? & _ & HX). inversion HX; subst c; clear HX.
    apply bind_ok in H1 as (? & _ & HX). apply bind_ok in HX as (? & _ & HX). inversion HX; reflexivity.
  - destruct (nth_error (order_nodes b) (length cur)) as [v|]; cbn [of_option bind] in H |- *; [|discriminate].
    unfold get_node in H |- *. destruct (structure_find _ _ v HS) as (g & Hg & ->). destruct (find_node (variable_nodes b) v) as [n|] eqn:En; cbn [of_option option_map] in H |- *; [|discriminate].
    destruct (Hg n) as (G1 & G2 & G3 & _). rewrite G1, G2.
    destruct (fold_cached (body fuel b ai n p) (nvalues n) (vp, cur) m) as [[stE|e] mE] eqn:EF; [|discriminate]. injection H as H1 H2. subst mE.
    assert (FOLD : forall l st m vp2, fold_cached (body fuel b ai n p) l st m = (Ok stE, m') ->
      fold_cached (body fuel b' ai' (g n) p2) l (vp2, snd st) m2 = (fst (fold_cached (body fuel b ai' n p2) l (vp2, snd st) m'), m2) /\
      snd (fold_cached (body fuel b ai' n p2) l (vp2, snd st) m') = m' /\
      (forall x, fst (fold_cached (body fuel b ai' n p2) l (vp2, snd st) m') = Ok x -> snd x = snd stE)).
    { clear EF H1 vp2. induction l as [|x l IHl]; intros st m1 vp2 HF; cbn [fold_cached] in HF |- *.
      - inversion HF; subst. split; [reflexivity|]. split; [reflexivity|]. intros y Hy. cbn in Hy. inversion Hy; reflexivity.
      - destruct (body fuel b ai n p st x m1) as [[st1|e] m1'] eqn:EB; [|discriminate].
        assert (HE1 : extends m1' m').
        { pose proof (fold_cached_extends (body fuel b ai n p)) as HX. specialize (HX ltac:(intros st' a m0; unfold body;
            destruct (conditioning_values n (snd st')) as [cv|]; [|apply extends_refl];
            pose proof (cached_probability_extends n a (cond_key cv) m0) as HP;
            destruct (cached_probability n a (cond_key cv) m0) as [[q|] m3]; [|exact HP]; eapply extends_trans; [exact HP | apply cached_joint_extends]) l st1 m1').
          rewrite HF in HX. exact HX. }
        unfold body in EB. destruct (conditioning_values n (snd st)) as [cv|e] eqn:EC; [|discriminate].
        set (kk := cond_key cv) in EB.
        destruct (cached_probability n x kk m1) as [[q|e] mq] eqn:EP; [|discriminate].
        pose proof (cached_probability_stored _ _ _ _ _ _ EP) as HQ.
        destruct st1 as [vp1 cur1]. pose proof (IH _ _ _ _ _ _ _ _ _ EB) as HI.
        assert (HQE : extends mq m1').
        { pose proof (cached_joint_extends fuel b ai (fst st) (assoc_set Nat.eqb (nname n) x (snd st)) (p * q)%R mq) as HX. rewrite EB in HX. exact HX. }
        assert (B1 : body fuel b ai' n p2 (vp2, snd st) x m' = (fst (cached_joint_values fuel b ai' vp2 (assoc_set Nat.eqb (nname n) x (snd st)) (p2 * q)%R m1'), m')).
        { unfold body. cbn [snd fst]. rewrite EC. fold kk. rewrite (cached_probability_hit n x kk m' q) by (apply HE1, HQE, HQ).
          destruct (HI b ai' vp2 (p2 * q)%R m' (same_structure_refl b) HE1) as [-> _]. reflexivity. }
        assert (B2 : body fuel b' ai' (g n) p2 (vp2, snd st) x m2 = (fst (cached_joint_values fuel b ai' vp2 (assoc_set Nat.eqb (nname n) x (snd st)) (p2 * q)%R m1'), m2)).
        { unfold body. cbn [snd fst]. assert (EC' : conditioning_values (g n) (snd st) = Ok cv) by (unfold conditioning_values; rewrite G3; exact EC).
          rewrite EC'. fold kk. rewrite (cached_probability_hit (g n) x kk m2 q) by (rewrite G1; apply HE, HE1, HQE, HQ). rewrite G1.
          destruct (HI b' ai' vp2 (p2 * q)%R m2 HS ltac:(eapply extends_trans; eassumption)) as [-> _]. reflexivity. }
        rewrite B1, B2. destruct (HI b ai' vp2 (p2 * q)%R m1' (same_structure_refl b) (extends_refl m1')) as [_ HC].
        destruct (fst (cached_joint_values fuel b ai' vp2 (assoc_set Nat.eqb (nname n) x (snd st)) (p2 * q)%R m1')) as [[vp3 c3]|e].
        + specialize (HC vp3 c3 eq_refl). subst c3. exact (IHl (vp1, cur1) m1' vp3 HF).
        + split; [reflexivity|]. split; [reflexivity|]. intros y Hy; discriminate Hy. }
    destruct (FOLD (nvalues n) (vp, cur) m vp2 EF) as (F1 & F2 & F3). cbn [snd] in F1, F2, F3. rewrite F1.
    destruct (fold_cached (body fuel b ai' n p2) (nvalues n) (vp2, cur) m') as [[st3|e] m3]; cbn [fst snd] in F2, F3 |- *; subst m3.
    + split; [reflexivity|]. intros x c HX. rewrite (F3 st3 eq_refl) in HX. apply bind_ok in HX as (c' & HX1 & HX2). inversion HX2; subst.
      apply bind_ok in H1 as (c2 & H1 & H3). inversion H3; subst. congruence.
    + split; [reflexivity|]. intros x c HX; discriminate HX.
Qed.

(** ** what every request leaves alone *)
Definition keeps_refs (o o' : obj) : Prop :=
  (forall f r, assoc form_eqb f (joints o) = Some r -> assoc form_eqb f (joints o') = Some r) /\
  (forall i r, assoc ids_eqb i (partials o) = Some r -> assoc ids_eqb i (partials o') = Some r) /\
  extends (pov_memo o) (pov_memo o') /\ same_structure (net o) (net o') /\ length (heap o) <= length (heap o').
Lemma keeps_refl o : keeps_refs o o.
Proof. repeat split; auto using extends_refl, same_structure_refl. Qed.
Lemma keeps_trans a b c : keeps_refs a b -> keeps_refs b c -> keeps_refs a c.
Proof.
  intros (A1 & A2 & A3 & A4 & A5) (B1 & B2 & B3 & B4 & B5). split; [auto|]. split; [auto|]. split; [eapply extends_trans; eassumption|].
  split; [eapply same_structure_trans; eassumption | lia].
Qed.
Lemma edit_keeps v k row : keeps_node (fun n => if Nat.eqb (nname n) v then with_probs n (assoc_set key_eqb k row (nprobs n)) else n).
Proof. intros n. destruct (nname n =? v); auto. Qed.
Lemma set_nth_length {A} i (x : A) : forall l, length (set_nth i x l) = length l.
Proof. revert i. intros i l. revert i. induction l as [|y l IH]; intros [|i]; cbn; auto. Qed.
Lemma set_nth_other {A} (x d : A) : forall l i j, i <> j -> nth j (set_nth i x l) d = nth j l d.
Proof. induction l as [|y l IH]; intros [|i] [|j] H; cbn; try reflexivity; try congruence; try (apply IH; lia). Qed.
Lemma set_nth_same {A} (x d : A) : forall l i, i < length l -> nth i (set_nth i x l) d = x.
Proof. induction l as [|y l IH]; intros [|i] H; cbn in H |- *; try reflexivity; try lia; try (apply IH; lia). Qed.

Definition keeps_content (o o' : obj) : Prop := exists l, heap o' = heap o ++ l.
Lemma kc_refl o : keeps_content o o. Proof. exists []. rewrite app_nil_r. reflexivity. Qed.
Lemma kc_trans a b c : keeps_content a b -> keeps_content b c -> keeps_content a c.
Proof. intros [l H] [l' H']. exists (l ++ l'). rewrite H', H, app_assoc. reflexivity. Qed.

Lemma subnetwork_keeps fuel o ids : let '(_, o') := ask_subnetwork fuel o ids in keeps_refs o o' /\ keeps_content o o' /\ net o' = net o /\ joints o' = joints o /\ pov_memo o' = pov_memo o.
Proof.
  unfold ask_subnetwork. destruct (assoc ids_eqb ids (subs o)); [split; [apply keeps_refl | split; [apply kc_refl | auto]]|].
  destruct (subnetwork_nodes fuel (net o) ids); [|split; [apply keeps_refl | split; [apply kc_refl | auto]]].
  destruct (finalize fuel (new_bn a)); cbn; (split; [repeat split; auto using extends_refl, same_structure_refl | split; [apply kc_refl || (exists []; rewrite app_nil_r; reflexivity) | auto]]).
Qed.
Lemma sub_joint_keeps fuel o ids s : let '(_, o') := ask_sub_joint fuel o ids s in keeps_refs o o' /\ keeps_content o o' /\ net o' = net o /\ joints o' = joints o /\ pov_memo o' = pov_memo o /\ partials o' = partials o.
Proof.
  unfold ask_sub_joint. destruct (sub_joint s); [split; [apply keeps_refl | split; [apply kc_refl | auto]]|].
  destruct (cached_joint_pmf fuel (sub_now o s) true (sub_memo s)) as [[P|e] m].
  - split; [|split; [exists [P]; reflexivity | auto]]. split; [auto|]. split; [auto|]. split; [apply extends_refl|]. split; [apply same_structure_refl|]. cbn. rewrite app_length. lia.
  - split; [|split; [exists []; rewrite app_nil_r; reflexivity | auto]]. repeat split; auto using extends_refl, same_structure_refl.
Qed.
Lemma partial_keeps iterate fuel o ids : let '(x, o') := ask_partial iterate fuel o ids in keeps_refs o o' /\ keeps_content o o' /\ net o' = net o /\ joints o' = joints o /\ pov_memo o' = pov_memo o /\
  match x with Ok r => assoc ids_eqb ids (partials o') = Some r | Err _ => True end.
Proof.
  unfold ask_partial. destruct (assoc ids_eqb ids (partials o)) as [r|] eqn:E; [split; [apply keeps_refl | split; [apply kc_refl | auto]]|].
  destruct (finalized (net o)); [|split; [apply keeps_refl | split; [apply kc_refl | auto]]].
  pose proof (subnetwork_keeps fuel o ids) as H1. assert (EP : partials (snd (ask_subnetwork fuel o ids)) = partials o).
  { unfold ask_subnetwork. destruct (assoc ids_eqb ids (subs o)); [reflexivity|]. destruct (subnetwork_nodes fuel (net o) ids); [|reflexivity]. destruct (finalize fuel (new_bn a)); reflexivity. }
  destruct (ask_subnetwork fuel o ids) as [[s|e] o1]; cbn [snd] in EP; [|tauto].
  pose proof (sub_joint_keeps fuel o1 ids s) as H2. destruct (ask_sub_joint fuel o1 ids s) as [[r|e] o2].
  2: { destruct H1 as (A & B & C & D & F), H2 as (A' & B' & C' & D' & F' & _). split; [eapply keeps_trans; eassumption|]. split; [eapply kc_trans; eassumption|]. rewrite C', D', F'. tauto. }
  destruct H1 as (A & B & C & D & F), H2 as (A' & B' & C' & D' & F' & EP').
  assert (K : keeps_refs o o2) by (eapply keeps_trans; eassumption). assert (KC : keeps_content o o2) by (eapply kc_trans; eassumption).
  rewrite EP in EP'. 
  assert (FIN : forall r' hp, length (heap o2) <= length hp -> (exists l, hp = heap o2 ++ l) -> let o' := {| net := net o2; frozen := frozen o2; pov_memo := pov_memo o2; joints := joints o2; subs := subs o2;
     partials := partials o2 ++ [(ids, r')]; heap := hp |} in keeps_refs o o' /\ keeps_content o o' /\ net o' = net o /\ joints o' = joints o /\ pov_memo o' = pov_memo o /\ assoc ids_eqb ids (partials o') = Some r').
  { intros r' hp Hl Hx o'. split.
    - eapply keeps_trans; [exact K|]. split; [auto|]. split; [|split; [apply extends_refl | split; [apply same_structure_refl | exact Hl]]].
      intros i x Hi. cbn. rewrite d_app, Hi. reflexivity.
    - split; [eapply kc_trans; [exact KC | exact Hx]|]. cbn. rewrite C', D', F'. repeat (split; [assumption|]). rewrite d_app, EP', E. cbn. rewrite (d_refl _ ids_eqb_ok). reflexivity. }
  destruct (iterate _) as [|z over].
  - apply FIN; [lia | exists []; rewrite app_nil_r; reflexivity].
  - destruct (foldM sum_over (z :: over) (content o2 r)) as [Q|e]; [|rewrite C', D', F'; tauto].
    apply FIN; [rewrite app_length; lia | exists [Q]; reflexivity].
Qed.
Lemma joint_keeps fuel o f : let '(x, o') := ask_joint fuel o f in keeps_refs o o' /\ keeps_content o o' /\ net o' = net o /\
  match x with Ok r => assoc form_eqb f (joints o') = Some r | Err _ => True end.
Proof.
  unfold ask_joint. destruct (assoc form_eqb f (joints o)) as [r|] eqn:E; [split; [apply keeps_refl | split; [apply kc_refl | auto]]|].
  assert (HX : extends (pov_memo o) (snd (cached_joint_pmf fuel (net o) (form_flag f) (pov_memo o)))).
  { unfold cached_joint_pmf. destruct (finalized (net o)); [|apply extends_refl]. pose proof (cached_joint_extends fuel (net o) (form_flag f) [] [] 1%R (pov_memo o)) as H.
    destruct (cached_joint_values fuel (net o) (form_flag f) [] [] 1%R (pov_memo o)) as [[st|e] m]; exact H. }
  destruct (cached_joint_pmf fuel (net o) (form_flag f) (pov_memo o)) as [[P|e] m]; cbn [snd] in HX.
  - split; [|split; [exists [P]; reflexivity | split; [reflexivity|]]].
    + split; [intros f' r' H; cbn; rewrite d_app, H; reflexivity|]. split; [auto|]. split; [exact HX|]. split; [apply same_structure_refl|]. cbn. rewrite app_length. lia.
    + cbn. rewrite d_app, E. cbn. rewrite (d_refl _ form_eqb_ok). reflexivity.
  - split; [|split; [exists []; rewrite app_nil_r; reflexivity | auto]]. split; [auto|]. split; [auto|]. split; [exact HX|]. split; [apply same_structure_refl | auto].
Qed.
Lemma probability_keeps o v x k : let '(_, o') := ask_probability o v x k in keeps_refs o o' /\ keeps_content o o' /\ net o' = net o /\ joints o' = joints o /\ frozen o' = frozen o.
Proof.
  unfold ask_probability. destruct (get_node (variable_nodes (net o)) v) as [n|e]; [|split; [apply keeps_refl | split; [apply kc_refl | auto]]].
  pose proof (cached_probability_extends n x k (pov_memo o)) as HX. destruct (cached_probability n x k (pov_memo o)) as [y m]. cbn [snd] in HX.
  split; [|split; [exists []; rewrite app_nil_r; reflexivity | auto]]. split; [auto|]. split; [auto|]. split; [exact HX|]. split; [apply same_structure_refl | auto].
Qed.
Lemma step_keeps iterate fuel o a : keeps_refs o (snd (step iterate fuel o a)).
Proof.
  destruct a; cbn [step].
  - pose proof (probability_keeps o v value k) as H. destruct (ask_probability o v value k). apply H.
  - pose proof (joint_keeps fuel o f) as H. destruct (ask_joint fuel o f). apply H.
  - pose proof (subnetwork_keeps fuel o ids) as H. destruct (ask_subnetwork fuel o ids). apply H.
  - pose proof (partial_keeps iterate fuel o ids) as H. destruct (ask_partial iterate fuel o ids). apply H.
  - apply keeps_refl.
  - destruct (find_node (variable_nodes (net o)) v); [|apply keeps_refl]. cbn [snd]. split; [auto|]. split; [auto|]. split; [apply extends_refl|]. split; [|auto].
    exists (fun n => if Nat.eqb (nname n) v then with_probs n (assoc_set key_eqb k row (nprobs n)) else n). split; [apply edit_keeps | reflexivity].
  - cbn. split; [auto|]. split; [auto|]. split; [apply extends_refl|]. split; [apply same_structure_refl|]. cbn. rewrite set_nth_length. auto.
Qed.
Lemma run_cons iterate fuel o a ops : run iterate fuel o (a :: ops) =
  (fst (step iterate fuel o a) :: fst (run iterate fuel (snd (step iterate fuel o a)) ops), snd (run iterate fuel (snd (step iterate fuel o a)) ops)).
Proof. cbn [run]. destruct (step iterate fuel o a) as [x o1]. cbn [fst snd]. destruct (run iterate fuel o1 ops). reflexivity. Qed.
Lemma run_keeps iterate fuel : forall ops o, keeps_refs o (snd (run iterate fuel o ops)).
Proof. induction ops as [|a ops IH]; intros o; [apply keeps_refl|]. rewrite run_cons. eapply keeps_trans; [apply step_keeps | apply IH]. Qed.

Lemma step_content iterate fuel o a : (forall r, a <> Zeros r) -> keeps_content o (snd (step iterate fuel o a)).
Proof.
  intros Ha. destruct a; cbn [step].
  - pose proof (probability_keeps o v value k) as H. destruct (ask_probability o v value k). apply H.
  - pose proof (joint_keeps fuel o f) as H. destruct (ask_joint fuel o f). apply H.
  - pose proof (subnetwork_keeps fuel o ids) as H. destruct (ask_subnetwork fuel o ids). apply H.
  - pose proof (partial_keeps iterate fuel o ids) as H. destruct (ask_partial iterate fuel o ids). apply H.
  - apply kc_refl.
  - destruct (find_node (variable_nodes (net o)) v); [|apply kc_refl]. exists []. rewrite app_nil_r. reflexivity.
  - destruct (Ha r eq_refl).
Qed.
Lemma content_step iterate fuel o a r : a <> Zeros r -> r < length (heap o) -> content (snd (step iterate fuel o a)) r = content o r.
Proof.
  intros Ha Hr. assert (D : (forall r', a <> Zeros r') \/ exists r', a = Zeros r') by (destruct a; try (left; discriminate); right; eauto).
  destruct D as [D | [r' ->]].
  - destruct (step_content iterate fuel o a D) as [l H]. unfold content. rewrite H. apply app_nth1. exact Hr.
  - cbn. unfold content at 1. cbn. apply set_nth_other. congruence.
Qed.
Lemma content_run iterate fuel r : forall ops o, ~ In (Zeros r) ops -> r < length (heap o) -> content (snd (run iterate fuel o ops)) r = content o r.
Proof.
  induction ops as [|a ops IH]; intros o Ha Hr; [reflexivity|]. rewrite run_cons. cbn [snd].
  rewrite IH; [apply content_step; [intros E; apply Ha; left; exact E | exact Hr] | intros E; apply Ha; right; exact E |].
  pose proof (step_keeps iterate fuel o a) as (_ & _ & _ & _ & H). lia.
Qed.
Lemma frozen_run iterate fuel : forall ops o, (forall ids, ~ In (Subnetwork ids) ops /\ ~ In (Partial ids) ops) -> frozen (snd (run iterate fuel o ops)) = frozen o.
Proof.
  induction ops as [|a ops IH]; intros o Ha; [reflexivity|]. rewrite run_cons. cbn [snd]. rewrite IH by (intros ids; destruct (Ha ids) as [A B]; cbn in A, B; tauto).
  destruct a; cbn [step].
  - pose proof (probability_keeps o v value k) as H. destruct (ask_probability o v value k). apply H.
  - unfold ask_joint. destruct (assoc form_eqb f (joints o)); [reflexivity|]. destruct (cached_joint_pmf fuel (net o) (form_flag f) (pov_memo o)) as [[P|e] m]; reflexivity.
  - destruct (Ha ids) as [A _]. destruct A. left; reflexivity.
  - destruct (Ha ids) as [_ A]. destruct A. left; reflexivity.
  - reflexivity.
  - destruct (find_node (variable_nodes (net o)) v); reflexivity.
  - reflexivity.
Qed.
