From Verif Require Import Base Graph_Model Graph_Spec Graph_History_Model Graph_Paths_Proofs Graph_Build_Proofs Graph_Dsep_Proofs Graph_History_Proofs
  MB_Model MB_Spec MB_Cache_Proofs DAG_Sep_Proofs IPCMB_Proofs IPCMB_Exact_Proofs IAMB_Proofs DSep_Model DSep_Spec.

Local Open Scope nat_scope.

Lemma good_bn_ext E E' N b : (forall u v, E u v <-> E' u v) -> good_bn E N b -> good_bn E' N b.
Proof.
  intros HE ([H1 H2 H3 H4] & Hc). split; [|assumption]. constructor.
  - intros u v H. apply (H1 u v), HE, H.
  - intros u Hu. destruct (H2 u Hu) as (l & El & Hl). exists l. split; [assumption|]. intros v. rewrite Hl. apply HE.
  - intros u Hu. destruct (H3 u Hu) as (l & El & HN & Hl). exists l. split; [assumption|]. split; [assumption|]. intros v. rewrite Hl. unfold adjacent. rewrite !HE. reflexivity.
  - assumption.
Qed.

Lemma object_good U E b : network_object U E b -> exists N, good_bn E N b /\ (forall x, In x U <-> In x N).
Proof.
  intros [(net & Hok & -> & HU & HE)|(g & order & HD & HO & -> & HU & HE)].
  - exists (map fst net). split; [|assumption]. eapply good_bn_ext; [|apply net_good; assumption]. intros; rewrite HE; reflexivity.
  - exists (all_nodes g). split; [eapply good_bn_ext; [|apply new_bn_good; assumption]; intros; rewrite HE; reflexivity|].
    intros x. rewrite HU. apply order_all; assumption.
Qed.

Lemma object_dag U E b : NoDup U -> network_object U E b -> acyclic E -> dag_over U E.
Proof.
  intros HN Hb Hac. destruct (object_good U E b Hb) as (N & ([H1 H2 _ _] & _) & HU). split; [assumption|]. split; [assumption|]. split.
  - intros u v H. apply H1 in H. rewrite !HU. assumption.
  - intros u v. destruct (in_dec Nat.eq_dec u N) as [Hu|Hu].
    + destruct (H2 u Hu) as (l & _ & Hl). rewrite <- Hl. destruct (in_dec Nat.eq_dec v l); tauto.
    + right. intros H. apply H1 in H. tauto.
Qed.

Section Env.
  Variables (U : list nat) (E : nat -> nat -> Prop) (N : list nat) (gu0 : graph) (fuel : nat).
  Hypothesis Hfuel : forall x, In x U -> fuel_for gu0 x <= fuel.
  Definition env_inv (st : env) := good_bn E N (e_bn st) /\ graph_u (e_bn st) = gu0.

  Lemma dsep_ci_decides : decides (dsep_ci fuel) U env_inv (library_rule E).
  Proof.
    intros st x y Z (Hg & Hu) (_ & _ & _ & _ & Hx & _). unfold dsep_ci, conditionally_independent.
    destruct (d_separated_ok E N (e_bn st) x Z y Hg) as (r & b' & Ed & Hg' & _ & Hu' & Hr).
    rewrite Ed by (rewrite Hu; apply Hfuel; assumption). eexists r, _. split; [reflexivity|]. split; [|exact Hr].
    split; simpl; [assumption|congruence].
  Qed.
  Lemma dsep_heuristic_ok st x y Z : env_inv st -> sensible_question U x y Z ->
    exists s st', dsep_heuristic fuel st x y Z = (Ok s, st') /\ env_inv st' /\ (s = 1%Q <-> ~ library_rule E x Z y) /\ (s = 0%Q <-> library_rule E x Z y).
  Proof.
    intros (Hg & Hu) (_ & _ & _ & _ & Hx & _). unfold dsep_heuristic, conditionally_independent.
    destruct (d_separated_ok E N (e_bn st) x Z y Hg) as (r & b' & Ed & Hg' & _ & Hu' & Hr).
    rewrite Ed by (rewrite Hu; apply Hfuel; assumption). eexists _, _. split; [reflexivity|]. split; [split; simpl; [assumption|congruence]|].
    fold (library_rule E x Z y) in Hr. destruct r.
    - assert (library_rule E x Z y) by (apply Hr; reflexivity). split; split; try tauto; discriminate.
    - assert (~ library_rule E x Z y) by (rewrite <- Hr; discriminate). split; split; try tauto; discriminate.
  Qed.
End Env.

(** ** shortest paths *)
Lemma min_by_len_ok l : forall best, let m := min_by_len best l in (m = best \/ In m l) /\ length m <= length best /\ forall p, In p l -> length m <= length p.
Proof.
  induction l as [|q l IH]; intros best; simpl; [split; [auto|split; [lia|intros p []]]|].
  specialize (IH (if length q <? length best then q else best)). cbv zeta in IH. destruct IH as (H1 & H2 & H3).
  destruct (Nat.ltb_spec (length q) (length best)).
  - split; [destruct H1 as [->|H1]; auto|]. split; [lia|]. intros p [<-|Hp]; auto.
  - split; [destruct H1 as [->|H1]; auto|]. split; [lia|]. intros p [<-|Hp]; [lia|auto].
Qed.

Lemma suffix_path R x p y : path_from R x p y -> forall w, In w p -> exists p1 p2, p = p1 ++ p2 /\ path_from R w p2 y.
Proof.
  induction 1 as [x|x z p y H1 H2 IH]; intros w [<-|Hw].
  - exists [], [x]. split; [reflexivity|constructor].
  - destruct Hw.
  - exists [], (x :: p). split; [reflexivity|econstructor; eauto].
  - destruct (IH w Hw) as (p1 & p2 & -> & H). exists (x :: p1), p2. split; [reflexivity|assumption].
Qed.
Lemma path_shorten R x p y : path_from R x p y -> exists q, simple_path R x q y /\ length q <= length p.
Proof.
  induction 1 as [x|x z p y H1 H2 (q & (Hq & HN) & Hl)].
  - exists [x]. split; [split; [constructor|repeat constructor; intros []]|auto].
  - destruct (in_dec Nat.eq_dec x q) as [Hin|Hnin].
    + destruct (suffix_path _ _ _ _ Hq x Hin) as (q1 & q2 & -> & Hq2). exists q2.
      split; [split; [assumption|]|rewrite app_length in Hl; simpl; lia].
      clear - HN. induction q1; [assumption|]. inversion HN; auto.
    + exists (x :: q). split; [split; [econstructor; eauto|constructor; assumption]|simpl; lia].
Qed.
Lemma connected_path E x y : connected E x y -> exists p, path_from (adjacent E) x p y.
Proof.
  intros H. apply clos_rt_rt1n in H. induction H as [|a b c H1 _ (p & IH)]; [eexists; constructor|]. eexists. econstructor; eauto.
Qed.
Lemma path_connected E x p y : path_from (adjacent E) x p y -> connected E x y.
Proof. induction 1; [apply rt_refl|]. eapply rt_trans; [apply rt_step; eassumption|assumption]. Qed.
Lemma distance_unique E x y n m : distance_nodes E x y n -> distance_nodes E x y m -> n = m.
Proof.
  intros ((p & (Hp & _) & <-) & H1) ((q & (Hq & _) & <-) & H2). apply Nat.le_antisymm; auto.
Qed.

Lemma shortest_ok E x y ps : (forall p, In p ps <-> simple_path (adjacent E) x p y) ->
  (shortest_path ps = Err ValueError /\ ~ connected E x y) \/
  (exists p, shortest_path ps = Ok p /\ distance_nodes E x y (length p)).
Proof.
  intros Hps. destruct ps as [|p ps].
  - left. split; [reflexivity|]. intros Hc. destruct (connected_path _ _ _ Hc) as (p & Hp). destruct (path_shorten _ _ _ _ Hp) as (q & Hq & _).
    apply Hps in Hq. destruct Hq.
  - right. unfold shortest_path. exists (min_by_len p ps). split; [reflexivity|]. destruct (min_by_len_ok ps p) as (H1 & H2 & H3).
    split; [exists (min_by_len p ps); split; [|reflexivity]; apply Hps; destruct H1 as [->|H1]; simpl; auto|].
    intros q Hq. destruct (path_shorten _ _ _ _ Hq) as (r & Hr & Hl). apply Hps in Hr as [<-|Hr]; [lia|]. specialize (H3 r Hr). lia.
Qed.

Definition inv_len (n : nat) : Q := (1 / inject_Z (Z.of_nat n))%Q.

Section Est.
  Variables (U : list nat) (E : nat -> nat -> Prop) (N : list nat) (gu0 : graph) (fuel : nat).
  Hypothesis Hfuel : forall x, In x U -> fuel_for gu0 x <= fuel.
  Notation env_inv := (env_inv E N gu0).

  Lemma estimate_ok st b x y Z : good_bn E N b -> graph_u b = gu0 -> In x U ->
    (exists st', estimate fuel st b x y Z = (Err ValueError, st') /\ ~ connected E x y /\ env_inv st') \/
    (exists n st', estimate fuel st b x y Z = (Ok (inv_len n), st') /\ distance_nodes E x y n /\ env_inv st').
  Proof.
    intros Hg Hu Hx. unfold estimate. destruct (undirected_paths_ok E N b x y Hg) as (ps & b' & Ep & Hg' & _ & Hu' & _ & Hps & _).
    rewrite Ep by (rewrite Hu; apply Hfuel; assumption).
    destruct (shortest_ok E x y ps Hps) as [(-> & Hc)|(p & -> & Hd)].
    - left. eexists. split; [reflexivity|]. split; [assumption|]. split; simpl; [assumption|congruence].
    - right. exists (length p). eexists. split; [reflexivity|]. split; [assumption|]. split; simpl; [assumption|congruence].
  Qed.

  Lemma bn_correlation_ok st x y Z : env_inv st -> In x U ->
    (Z <> [] /\ library_rule E x Z y /\ exists st', bn_correlation fuel st x y Z = (Ok 0%Q, st') /\ env_inv st') \/
    ((Z = [] \/ ~ library_rule E x Z y) /\ connected E x y /\ exists n st', bn_correlation fuel st x y Z = (Ok (inv_len n), st') /\ distance_nodes E x y n /\ env_inv st') \/
    (Z = [] /\ ~ connected E x y /\ exists st', bn_correlation fuel st x y Z = (Err ValueError, st') /\ env_inv st').
  Proof.
    intros (Hg & Hu) Hx. unfold bn_correlation. destruct Z as [|z Z].
    - right. destruct (estimate_ok st (e_bn st) x y [] Hg Hu Hx) as [(st' & Es & Hc & Hi)|(n & st' & Es & Hd & Hi)].
      + right. split; [reflexivity|]. split; [assumption|]. eauto.
      + left. split; [auto|]. split; [destruct Hd as ((p & (Hp & _) & _) & _); eapply path_connected; eauto|]. eauto.
    - unfold conditionally_independent. destruct (d_separated_ok E N (e_bn st) x (z :: Z) y Hg) as (r & b' & Ed & Hg' & _ & Hu' & Hr).
      rewrite Ed by (rewrite Hu; apply Hfuel; assumption). fold (library_rule E x (z :: Z) y) in Hr. destruct r.
      + left. split; [discriminate|]. split; [apply Hr; reflexivity|]. eexists. split; [reflexivity|]. split; simpl; [assumption|congruence].
      + assert (Hn : ~ library_rule E x (z :: Z) y) by (rewrite <- Hr; discriminate).
        right; left. split; [auto|].
        destruct (estimate_ok st b' x y (z :: Z) Hg' ltac:(congruence) Hx) as [(st' & Es & Hc & Hi)|(n & st' & Es & Hd & Hi)].
        * exfalso. apply Hn. intros p (Hp & _). exfalso. apply Hc. eapply path_connected; eauto.
        * split; [destruct Hd as ((p & (Hp & _) & _) & _); eapply path_connected; eauto|]. eauto.
  Qed.
End Est.

Lemma inv_len_pos n : n <> 0 -> (0 < inv_len n)%Q.
Proof. intros H. unfold inv_len. apply Qlt_shift_div_l; [change 0%Q with (inject_Z 0); rewrite <- Zlt_Qlt; lia|]. rewrite Qmult_0_l. reflexivity. Qed.
Lemma inv_len_mono n m : n <> 0 -> n <= m -> (inv_len m <= inv_len n)%Q.
Proof.
  intros H H1. unfold inv_len. apply Qle_shift_div_l; [change 0%Q with (inject_Z 0); rewrite <- Zlt_Qlt; lia|].
  setoid_replace (1 / inject_Z (Z.of_nat m) * inject_Z (Z.of_nat n))%Q with (inject_Z (Z.of_nat n) / inject_Z (Z.of_nat m))%Q by (unfold Qdiv; ring).
  apply Qle_shift_div_r; [change 0%Q with (inject_Z 0); rewrite <- Zlt_Qlt; lia|]. rewrite Qmult_1_l, <- Zle_Qle. lia.
Qed.
Lemma inv_len_range n : n <> 0 -> (0 <= inv_len n <= 1)%Q.
Proof. intros H. split; [apply Qlt_le_weak, inv_len_pos; assumption|]. apply (Qle_trans _ (inv_len 1)); [apply inv_len_mono; lia|]. unfold inv_len. simpl. discriminate. Qed.
Lemma distance_pos E x y n : distance_nodes E x y n -> n <> 0.
Proof. intros ((p & (Hp & _) & <-) & _). destruct Hp; discriminate. Qed.
Lemma distance_adj E x y n : x <> y -> distance_nodes E x y n -> (n <= 2 <-> adjacent E x y) /\ 2 <= n.
Proof.
  intros Hne ((p & (Hp & _) & Hl) & Hmin). assert (H2 : 2 <= n).
  { subst n. destruct Hp as [|? ? ? ? ? Hp]; [congruence|]. destruct Hp; simpl; lia. }
  split; [|assumption]. split.
  - intros H. assert (Hn : length p = 2) by lia. destruct Hp as [|x z p y Ha Hp]; [congruence|]. destruct Hp as [|? ? ? ? ? Hp]; [assumption|].
    destruct Hp; simpl in Hn; lia.
  - intros Ha. apply (Hmin [x; y]). econstructor; [exact Ha|constructor].
Qed.

Definition total_fuel (g : graph) (U : list nat) := fold_right (fun x n => fuel_for g x + n) (S (length U)) U.
Lemma total_fuel_ok g U : (forall x, In x U -> fuel_for g x <= total_fuel g U) /\ S (length U) <= total_fuel g U.
Proof.
  unfold total_fuel. generalize (S (length U)) as k. induction U as [|u U IH]; cbn [fold_right]; intros k; [split; [intros x []|lia]|].
  destruct (IH k) as (H1 & H2). split; [intros x [->|Hx]; [lia|specialize (H1 x Hx); lia]|lia].
Qed.

Lemma q_gt_lt a c : (c < a)%Q -> q_gt a c = true /\ q_gt c a = false.
Proof.
  intros H. unfold q_gt. split.
  - apply negb_true_iff, not_true_iff_false. rewrite Qle_bool_iff. apply Qlt_not_le. assumption.
  - apply negb_false_iff, Qle_bool_iff, Qlt_le_weak. assumption.
Qed.

Section Runs.
  Variables (U : list nat) (E : nat -> nat -> Prop) (b : bn) (iter : env -> list nat -> list nat) (T : nat).
  Hypothesis HN : NoDup U.
  Hypothesis Hb : network_object U E b.
  Hypothesis Hac : acyclic E.
  Hypothesis Hit : iterates iter.
  Hypothesis HT : In T U.

  Lemma ipcmb_dsep : exists K, forall n, K <= n ->
    (exists PC st', ipcmb_discover_mb (dsep_ci n) iter true U T (fresh b) n = Ok (PC, st') /\ lists PC (parent_or_child E T)) /\
    (exists MB st', ipcmb_discover_mb (dsep_ci n) iter false U T (fresh b) n = Ok (MB, st') /\ StronglySorted lt MB /\
       (forall x, In x MB -> In x U /\ x <> T) /\ (forall x, markov_boundary E T x -> In x MB)).
  Proof.
    destruct (object_good U E b Hb) as (N & Hg & HU). exists (total_fuel (graph_u b) U). intros n Hn.
    destruct (total_fuel_ok (graph_u b) U) as (Hf1 & Hf2).
    assert (Hf : forall x, In x U -> fuel_for (graph_u b) x <= n) by (intros x Hx; specialize (Hf1 x Hx); lia).
    destruct (ipcmb_exact (dsep_ci n) iter U (env_inv E N (graph_u b)) E (library_rule E) (object_dag U E b HN Hb Hac) Hit (dsep_ci_decides U E N _ n Hf))
      with (T := T) (st := fresh b) as ((PC & st1 & E1 & _ & HPC) & (MB & st2 & E2 & _ & H1 & H2 & H3 & _)).
    - intros x Z y. apply d_sep_d_sep1.
    - auto.
    - intros x Z y. apply d_sep1_sym.
    - assumption.
    - split; [assumption|reflexivity].
    - split; [exists PC, st1; rewrite E1 by lia; auto|]. exists MB, st2. rewrite E2 by lia. auto.
  Qed.

  Lemma iamb_dsep : exists K, forall n, K <= n ->
    exists MB st', iamb_discover_mb (dsep_ci n) iter q_gt (dsep_heuristic n) U T (fresh b) n = Ok (MB, st') /\ lists MB (markov_boundary E T).
  Proof.
    destruct (object_good U E b Hb) as (N & Hg & HU). exists (total_fuel (graph_u b) U). intros n Hn.
    destruct (total_fuel_ok (graph_u b) U) as (Hf1 & Hf2).
    assert (Hf : forall x, In x U -> fuel_for (graph_u b) x <= n) by (intros x Hx; specialize (Hf1 x Hx); lia).
    assert (Hi : env_inv E N (graph_u b) (fresh b)) by (split; [assumption|reflexivity]).
    assert (Hacy := object_dag U E b HN Hb Hac).
    destruct (iamb_exact (dsep_ci n) iter q_gt (dsep_heuristic n) U (env_inv E N (graph_u b)) E (library_rule E) Hacy Hit (dsep_ci_decides U E N _ n Hf))
      with (T := T) (st := fresh b) (better := fun Z y => ~ library_rule E T Z y) (high := fun (_ : list nat) s => (0 < s)%Q)
      as (MB & st' & E1 & _ & HM); try assumption; auto.
    - intros x Z y. apply d_sep_d_sep1.
    - intros Z a c Ha Hc. apply Qnot_lt_le in Hc. apply q_gt_lt. eapply Qle_lt_trans; eauto.
    - intros st y Z Hs Hq. destruct (dsep_heuristic_ok U E N _ n Hf st T y Z Hs Hq) as (s & st' & Es & Hs' & H1 & H0).
      exists s, st'. split; [assumption|]. split; [assumption|].
      destruct (dsep_ci_decides U E N _ n Hf st T y Z Hs Hq) as (r & _ & _ & _ & Hr). destruct r.
      + assert (library_rule E T Z y) by (apply Hr; reflexivity). assert (s = 0%Q) by (apply H0; assumption). subst s.
        split; [intros H'; apply Qlt_irrefl in H'; destruct H'|contradiction].
      + assert (Hn' : ~ library_rule E T Z y) by (rewrite <- Hr; discriminate). assert (s = 1%Q) by (apply H1; assumption). subst s.
        split; [auto|reflexivity].
    - intros Z y Hq. destruct (dsep_ci_decides U E N _ n Hf _ T y Z Hi Hq) as (r & _ & _ & _ & Hr). destruct r.
      + right. intros H'. apply H', Hr. reflexivity.
      + left. rewrite <- Hr. discriminate.
    - intros Z y Ha. apply adjacent_not_sep1; [|assumption]. intros <-. destruct Ha; eapply no_loop; eauto.
    - exists MB, st'. rewrite E1 by lia. auto.
  Qed.

  (** with the path-length heuristic *)
  Lemma iamb_estimator : (forall y, In y U -> connected E T y) -> exists K, forall n, K <= n ->
    exists MB st', iamb_discover_mb (dsep_ci n) iter q_gt (bn_correlation n) U T (fresh b) n = Ok (MB, st') /\ lists MB (markov_boundary E T).
  Proof.
    intros Hconn. destruct (object_good U E b Hb) as (N & Hg & HU). exists (total_fuel (graph_u b) U). intros n Hn.
    destruct (total_fuel_ok (graph_u b) U) as (Hf1 & Hf2).
    assert (Hf : forall x, In x U -> fuel_for (graph_u b) x <= n) by (intros x Hx; specialize (Hf1 x Hx); lia).
    assert (Hi : env_inv E N (graph_u b) (fresh b)) by (split; [assumption|reflexivity]).
    assert (Hacy := object_dag U E b HN Hb Hac). assert (Hdec := proj2 (proj2 (proj2 Hacy))).
    assert (Hsd : forall Z y, sensible_question U T y Z -> library_rule E T Z y \/ ~ library_rule E T Z y).
    { intros Z y Hq. destruct (dsep_ci_decides U E N _ n Hf _ T y Z Hi Hq) as (r & _ & _ & _ & Hr). destruct r; [left; apply Hr; reflexivity|].
      right. rewrite <- Hr. discriminate. }
    destruct (iamb_exact (dsep_ci n) iter q_gt (bn_correlation n) U (env_inv E N (graph_u b)) E (library_rule E) Hacy Hit (dsep_ci_decides U E N _ n Hf))
      with (T := T) (st := fresh b) (better := fun Z y => match Z with [] => adjacent E T y | _ => ~ library_rule E T Z y end)
           (high := fun (Z : list nat) s => match Z with [] => (inv_len 2 <= s)%Q | _ => (0 < s)%Q end)
      as (MB & st' & E1 & _ & HM); try assumption; auto.
    - intros x Z y. apply d_sep_d_sep1.
    - intros Z a c Ha Hc. apply q_gt_lt.
      destruct Z; [apply Qnot_le_lt in Hc; eapply Qlt_le_trans; eauto|]. apply Qnot_lt_le in Hc. eapply Qle_lt_trans; eauto.
    - intros st y Z Hs Hq. assert (Hne : T <> y) by apply Hq. assert (HyU : In y U) by (destruct Hq as (_ & _ & _ & _ & _ & Hq & _); exact Hq).
      destruct (bn_correlation_ok U E N _ n Hf st T y Z Hs HT) as [(HZ & Hsep & st' & Es & Hs')|[(HZ & Hc & k & st' & Es & Hd & Hs')|(HZ & Hc & _)]].
      + exists 0%Q, st'. split; [assumption|]. split; [assumption|]. destruct Z; [congruence|]. split; [intros H'; apply Qlt_irrefl in H'; destruct H'|contradiction].
      + exists (inv_len k), st'. split; [assumption|]. split; [assumption|]. destruct Z as [|z Z].
        * destruct (distance_adj E T y k Hne Hd) as (H1 & H2). rewrite <- H1. split; [|intros H; apply inv_len_mono; [eapply distance_pos; eauto|assumption]].
          intros H. destruct (Nat.le_gt_cases k 2) as [?|Hk]; [assumption|]. exfalso.
          assert (H3 : (inv_len k <= inv_len 3)%Q) by (apply inv_len_mono; lia). pose proof (Qle_trans _ _ _ H H3) as H4. vm_compute in H4. apply H4. reflexivity.
        * destruct HZ as [?|HZ]; [discriminate|]. split; [auto|]. intros _. apply inv_len_pos. eapply distance_pos; eauto.
      + exfalso. auto.
    - intros Z y Hq. destruct Z as [|z Z].
      + unfold adjacent. destruct (Hdec T y), (Hdec y T); tauto.
      + destruct (Hsd _ y Hq); tauto.
    - intros Z y Hbt. destruct Z; [|assumption]. apply adjacent_not_sep1; [|assumption]. intros <-. destruct Hbt; eapply no_loop; eauto.
    - intros Z y Ha. destruct Z; [assumption|]. apply adjacent_not_sep1; [|assumption]. intros <-. destruct Ha; eapply no_loop; eauto.
    - intros Z y HZ Hns. destruct Z; [congruence|assumption].
    - exists MB, st'. rewrite E1 by lia. auto.
  Qed.


  (** one variable in another component makes the whole run fail *)
  Lemma argmax_fails N n : (forall x, In x U -> fuel_for (graph_u b) x <= n) ->
    forall xs best score st, env_inv E N (graph_u b) st -> (exists y, In y xs /\ ~ connected E T y) ->
    argmax q_gt (bn_correlation n) T [] best score xs st = Err ValueError.
  Proof.
    intros Hf. induction xs as [|x xs IH]; intros best score st Hs (y & Hy & Hc); [destruct Hy|].
    cbn [argmax]. destruct (bn_correlation_ok U E N _ n Hf st T x [] Hs HT) as [(HZ & _)|[(_ & Hcx & k & st' & Es & _ & Hs')|(_ & Hcx & st' & Es & Hs')]].
    - congruence.
    - rewrite Es. destruct Hy as [<-|Hy]; [contradiction|]. destruct (q_gt (inv_len k) score); apply IH; eauto.
    - rewrite Es. reflexivity.
  Qed.
  Lemma iamb_estimator_fails : (exists y, In y U /\ ~ connected E T y) -> exists K, forall n, K <= n ->
    iamb_discover_mb (dsep_ci n) iter q_gt (bn_correlation n) U T (fresh b) n = Err ValueError.
  Proof.
    intros (y & Hy & Hc). destruct (object_good U E b Hb) as (N & Hg & HU). exists (total_fuel (graph_u b) U). intros n Hn.
    destruct (total_fuel_ok (graph_u b) U) as (Hf1 & Hf2).
    assert (Hf : forall x, In x U -> fuel_for (graph_u b) x <= n) by (intros x Hx; specialize (Hf1 x Hx); lia).
    assert (Hi : env_inv E N (graph_u b) (fresh b)) by (split; [assumption|reflexivity]).
    assert (HyT : y <> T) by (intros ->; apply Hc, rt_refl).
    unfold iamb_discover_mb. destruct n as [|n]; [lia|]. cbn [grow].
    assert (Hyc : In y (set_remove1 U T)) by (apply remove1_in; auto).
    destruct (set_remove1 U T) as [|x0 cands] eqn:Ec; [destruct Hyc|]. rewrite <- Ec in *. clear Ec x0 cands.
    replace (highest_correlated_candidate iter q_gt (bn_correlation (S n)) T (set_remove1 U T) [] (fresh b)) with (@Err (nat * env) ValueError); [reflexivity|].
    symmetry. unfold highest_correlated_candidate.
    apply (iter_in iter Hit (fresh b)) in Hyc. destruct (iter (fresh b) (set_remove1 U T)) as [|x xs]; [destruct Hyc|].
    destruct (bn_correlation_ok U E N _ (S n) Hf (fresh b) T x [] Hi HT) as [(HZ & _)|[(_ & Hcx & k & st' & Es & _ & Hs')|(_ & Hcx & st' & Es & Hs')]].
    - congruence.
    - rewrite Es. destruct Hyc as [->|Hy']; [contradiction|]. eapply argmax_fails; eauto.
    - rewrite Es. reflexivity.
  Qed.
End Runs.
