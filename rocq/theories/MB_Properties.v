(** C27-C34: the feature-selection algorithms and their helpers. *)
From Verif Require Import Base Graph_Model Graph_Spec Graph_History_Model Graph_Dsep_Proofs Graph_Paths_Proofs Graph_History_Proofs
  MB_Model MB_Spec MB_Cache_Proofs DAG_Sep_Proofs IPCMB_Proofs IPCMB_Exact_Proofs IAMB_Proofs
  DSep_Model DSep_Spec DSep_Proofs PCMB_Model PCMB_Proofs.
Local Open Scope nat_scope.

Lemma evaluates_from {A} (f : nat -> res A) a K : (forall n, K <= n -> f n = Ok a) -> evaluates f (Ok a).
Proof. intros H. split; [discriminate|]. exists K. exact H. Qed.

Lemma logged_answers {St} (ci : St -> nat -> nat -> list nat -> res bool * St) V Inv : answers_sensibly ci V Inv ->
  answers_sensibly (logged ci) V (fun sl => Inv (fst sl) /\ all_sensible V (snd sl)).
Proof.
  intros H (st & log) x y Z (Hi & Hl) Hq. unfold logged. cbn [fst snd] in *. destruct (H st x y Z Hi Hq) as (r & st' & E & Hi' & Hr). rewrite E.
  exists r, (st', log ++ [(x, y, Z)]). split; [reflexivity|]. split; [|assumption]. split; [assumption|].
  intros a b C Hin. apply in_app_or in Hin as [Hin|[Hin|[]]]; [apply Hl; assumption|]. injection Hin as <- <- <-. assumption.
Qed.

(** *** C27 IPC-MB with any CI test: stateful, inconsistent, raising InsufficientSamples at will *)
Theorem C27_ipcmb_terminates_cleanly {St} (ci : St -> nat -> nat -> list nat -> res bool * St) (Inv : St -> Prop)
    (iter : St * list (nat * nat * list nat) -> list nat -> list nat) (pc_only : bool) (U V : list nat) (T : nat) (st : St) :
  answers_sensibly ci V Inv -> iterates iter -> NoDup U -> incl U V -> In T V -> Inv st ->
  exists MB st' log,
    evaluates (ipcmb_discover_mb (logged ci) iter pc_only U T (st, [])) (Ok (MB, (st', log))) /\
    StronglySorted lt MB /\ (forall x, In x MB -> In x U /\ x <> T) /\ all_sensible V log.
Proof.
  intros Hci Hit HN HU HT Hi.
  destruct (ipcmb_total (logged ci) iter V _ pc_only U T (st, []) (logged_answers ci V Inv Hci) Hit HN HU HT) as (MB & (st' & log) & E & (_ & Hl) & H1 & H2).
  { split; [assumption|]. intros x y Z []. }
  exists MB, st', log. split; [eapply evaluates_from; exact E|]. auto.
Qed.

(** *** C28 IPC-MB with a CI test that decides Pearl's d-separation in a DAG *)
Theorem C28_ipcmb_exact_boundary {St} (ci : St -> nat -> nat -> list nat -> res bool * St) (Inv : St -> Prop)
    (iter : St -> list nat -> list nat) (U : list nat) (E : nat -> nat -> Prop) (T : nat) (st : St) :
  dag_over U E -> decides ci U Inv (pearl E) -> iterates iter -> In T U -> Inv st ->
  exists MB st', evaluates (ipcmb_discover_mb ci iter false U T st) (Ok (MB, st')) /\ lists MB (markov_boundary E T).
Proof.
  intros HD Hci Hit HT Hi.
  destruct (ipcmb_exact ci iter U Inv E (pearl E) HD Hit Hci) with (T := T) (st := st) as (_ & (MB & st' & E1 & _ & _ & _ & _ & HM)); auto.
  { intros x Z y. apply d_sep_d_sep1. } { intros x Z y. apply d_sep_sym. }
  exists MB, st'. split; [eapply evaluates_from; exact E1|]. apply HM. auto.
Qed.
Theorem C28_ipcmb_exact_parents_children {St} (ci : St -> nat -> nat -> list nat -> res bool * St) (Inv : St -> Prop)
    (iter : St -> list nat -> list nat) (U : list nat) (E : nat -> nat -> Prop) (T : nat) (st : St) :
  dag_over U E -> decides ci U Inv (pearl E) -> iterates iter -> In T U -> Inv st ->
  exists PC st', evaluates (ipcmb_discover_mb ci iter true U T st) (Ok (PC, st')) /\ lists PC (parent_or_child E T).
Proof.
  intros HD Hci Hit HT Hi.
  destruct (ipcmb_exact ci iter U Inv E (pearl E) HD Hit Hci) with (T := T) (st := st) as ((PC & st' & E1 & _ & HM) & _); auto.
  { intros x Z y. apply d_sep_d_sep1. } { intros x Z y. apply d_sep_sym. }
  exists PC, st'. split; [eapply evaluates_from; exact E1|assumption].
Qed.

(** *** C29 IPC-MB with the shipped DSeparationCITest on a real network object *)
Theorem C29_ipcmb_dsep_parents_children (U : list nat) (E : nat -> nat -> Prop) (b : bn) (iter : env -> list nat -> list nat) (T : nat) :
  NoDup U -> network_object U E b -> acyclic E -> iterates iter -> In T U ->
  exists PC, lists PC (parent_or_child E T) /\
    exists K, forall n, K <= n -> exists st', ipcmb_discover_mb (dsep_ci n) iter true U T (fresh b) n = Ok (PC, st').
Proof.
  intros HN Hb Hac Hit HT. destruct (ipcmb_dsep U E b iter T HN Hb Hac Hit HT) as (K & H).
  destruct (H K (le_n K)) as ((PC & st & _ & HPC) & _). exists PC. split; [assumption|]. exists K. intros n Hn.
  destruct (H n Hn) as ((PC' & st' & E' & HPC') & _). exists st'. rewrite E'. do 2 f_equal.
  apply strict_unique; [apply HPC'|apply HPC|]. intros x. rewrite (proj2 HPC x), (proj2 HPC' x). reflexivity.
Qed.
Theorem C29_ipcmb_dsep_contains_boundary (U : list nat) (E : nat -> nat -> Prop) (b : bn) (iter : env -> list nat -> list nat) (T : nat) :
  NoDup U -> network_object U E b -> acyclic E -> iterates iter -> In T U ->
  exists K, forall n, K <= n -> exists MB st', ipcmb_discover_mb (dsep_ci n) iter false U T (fresh b) n = Ok (MB, st') /\
    StronglySorted lt MB /\ (forall x, In x MB -> In x U /\ x <> T) /\ (forall x, markov_boundary E T x -> In x MB).
Proof.
  intros HN Hb Hac Hit HT. destruct (ipcmb_dsep U E b iter T HN Hb Hac Hit HT) as (K & H). exists K. intros n Hn. apply H. assumption.
Qed.

(** the full boundary may come out too large *)
Definition gX : graph := [(0, [4; 5]); (1, [5; 6]); (2, [3]); (3, [6]); (4, [2; 6]); (5, [2]); (6, [])].
Definition nodesX : list nat := [0; 1; 2; 3; 4; 5; 6].
Definition sorted_iter : env -> list nat -> list nat := fun _ l => sort_nat l.
Lemma sorted_iterates : iterates sorted_iter. Proof. intros st l. apply sort_perm. Qed.

Lemma dict_acyclic (g : graph) (rank : nat -> nat) : (forall u v, edge_of g u v -> rank u < rank v) -> acyclic (edge_of g).
Proof.
  intros H u Hu. assert (G : forall a c, clos_trans _ (edge_of g) a c -> rank a < rank c) by (induction 1; [auto|lia]).
  specialize (G u u Hu). lia.
Qed.
Ltac edges H := let l := fresh "l" in let E := fresh "E" in let Hin := fresh "Hin" in
  destruct H as (l & E & Hin); cbn in E;
  repeat match type of E with (if ?u =? ?k then _ else _) = _ => destruct (Nat.eqb_spec u k); [injection E as <-; subst; simpl in Hin; intuition subst|] end; try discriminate.
Lemma gX_edges u v : edge_of gX u v -> In (u, v) [(0,4); (0,5); (1,5); (1,6); (2,3); (3,6); (4,2); (4,6); (5,2)].
Proof. intros H. edges H; simpl; tauto. Qed.
Lemma gX_acyclic : acyclic (edge_of gX).
Proof.
  apply (dict_acyclic gX (fun n => nth n [0; 1; 3; 4; 2; 2; 5] 0)). intros u v H. apply gX_edges in H. simpl in H.
  repeat (destruct H as [H|H]; [injection H as <- <-; simpl; lia|]). destruct H.
Qed.
Lemma gX_object : network_object nodesX (edge_of gX) (new_bn nodesX gX).
Proof.
  right. exists gX, nodesX. split; [unfold dict_ok; simpl; repeat constructor; simpl; intuition lia|]. split.
  - split; [unfold nodesX; repeat constructor; simpl; intuition lia|]. intros n. split.
    + intros H. left. exact H.
    + intros [H|(u & H)]; [exact H|]. apply gX_edges in H. simpl in H.
      unfold nodesX. simpl. intuition congruence.
  - split; [reflexivity|]. split; reflexivity.
Qed.
Lemma not_mb_6 : ~ markov_boundary (edge_of gX) 0 6.
Proof.
  intros [[H|H]|(_ & c & H1 & H2)].
  - apply gX_edges in H. simpl in H. intuition congruence.
  - apply gX_edges in H. simpl in H. intuition congruence.
  - apply gX_edges in H1, H2. simpl in H1, H2. intuition congruence.
Qed.
Lemma gX_run : exists st', ipcmb_discover_mb (dsep_ci 40) sorted_iter false nodesX 0 (fresh (new_bn nodesX gX)) 40 = Ok ([1; 4; 5; 6], st').
Proof.
  destruct (ipcmb_discover_mb (dsep_ci 40) sorted_iter false nodesX 0 (fresh (new_bn nodesX gX)) 40) as [(MB & st')|e] eqn:E.
  - assert (H : match ipcmb_discover_mb (dsep_ci 40) sorted_iter false nodesX 0 (fresh (new_bn nodesX gX)) 40 with Ok (m, _) => m | Err _ => [] end = [1; 4; 5; 6]) by (vm_compute; reflexivity).
    rewrite E in H. subst. eauto.
  - assert (H : match ipcmb_discover_mb (dsep_ci 40) sorted_iter false nodesX 0 (fresh (new_bn nodesX gX)) 40 with Ok _ => true | Err _ => false end = true) by (vm_compute; reflexivity).
    rewrite E in H. discriminate.
Qed.
Theorem C29_ipcmb_dsep_boundary_too_large :
  exists (U : list nat) (E : nat -> nat -> Prop) (b : bn) (iter : env -> list nat -> list nat) (T n : nat) (MB : list nat) (st' : env),
    NoDup U /\ network_object U E b /\ acyclic E /\ iterates iter /\ In T U /\
    ipcmb_discover_mb (dsep_ci n) iter false U T (fresh b) n = Ok (MB, st') /\
    exists x, In x MB /\ ~ markov_boundary E T x.
Proof.
  destruct gX_run as (st' & E). exists nodesX, (edge_of gX), (new_bn nodesX gX), sorted_iter, 0, 40, [1; 4; 5; 6], st'.
  split; [unfold nodesX; repeat constructor; simpl; intuition lia|]. split; [apply gX_object|]. split; [apply gX_acyclic|]. split; [apply sorted_iterates|].
  split; [simpl; tauto|]. split; [exact E|]. exists 6. split; [simpl; tauto|apply not_mb_6].
Qed.

(** *** C30 IAMB with any CI test and any heuristic *)
Theorem C30_iamb_terminates_cleanly {St Score} (ci : St -> nat -> nat -> list nat -> res bool * St) (heur : St -> nat -> nat -> list nat -> res Score * St)
    (gt : Score -> Score -> bool) (Inv : St -> Prop) (iter : St -> list nat -> list nat) (U V : list nat) (T : nat) (st : St) :
  answers_sensibly ci V Inv ->
  (forall st x y Z, Inv st -> sensible_question V x y Z -> exists s st', heur st x y Z = (Ok s, st') /\ Inv st') ->
  iterates iter -> NoDup U -> incl U V -> In T V -> Inv st ->
  exists MB st', evaluates (iamb_discover_mb ci iter gt heur U T st) (Ok (MB, st')) /\
    StronglySorted lt MB /\
    (forall x, In x MB -> In x U /\ x <> T /\
       exists s Z s', Inv s /\ sensible_question V T x Z /\ ci s T x Z = (Ok false, s')).
Proof.
  intros H1 H2 H3 H4 H5 H6 H7. destruct (iamb_total ci iter gt heur V Inv U T st H1 H2 H3 H4 H5 H6 H7) as (MB & st' & E & _ & HS & HM).
  exists MB, st'. split; [eapply evaluates_from; exact E|]. auto.
Qed.
(** IAMB asks its CI test and its heuristic only sensible questions about the target *)
Theorem C30_iamb_questions_sensible {St Score} (ci : St -> nat -> nat -> list nat -> res bool * St) (heur : St -> nat -> nat -> list nat -> res Score * St)
    (gt : Score -> Score -> bool) (Inv : St -> Prop) (iter : St * list (nat * nat * list nat) -> list nat -> list nat) (U V : list nat) (T : nat) (st : St) :
  answers_sensibly ci V Inv ->
  (forall st x y Z, Inv st -> sensible_question V x y Z -> exists s st', heur st x y Z = (Ok s, st') /\ Inv st') ->
  iterates iter -> NoDup U -> incl U V -> In T V -> Inv st ->
  exists MB st' log, evaluates (iamb_discover_mb (logged ci) iter gt (logged heur) U T (st, [])) (Ok (MB, (st', log))) /\ all_sensible V log.
Proof.
  intros H1 H2 H3 H4 H5 H6 H7.
  destruct (iamb_total (logged ci) iter gt (logged heur) V _ U T (st, []) (logged_answers ci V Inv H1)) as (MB & (st' & log) & E & (_ & Hl) & _); try assumption.
  { intros (s & l) x y Z (Hi & Hl) Hq. unfold logged. cbn [fst snd] in *. destruct (H2 s x y Z Hi Hq) as (v & s' & E & Hi'). rewrite E.
    exists v, (s', l ++ [(x, y, Z)]). split; [reflexivity|]. split; [assumption|].
    intros a c C Hin. apply in_app_or in Hin as [Hin|[Hin|[]]]; [apply Hl; assumption|]. injection Hin as <- <- <-. assumption. }
  { split; [assumption|]. intros x y Z []. }
  exists MB, st', log. split; [eapply evaluates_from; exact E|assumption].
Qed.

(** *** C31 IAMB with a perfect CI test *)
Theorem C31_iamb_exact_boundary {St Score} (ci : St -> nat -> nat -> list nat -> res bool * St) (heur : St -> nat -> nat -> list nat -> res Score * St)
    (gt : Score -> Score -> bool) (Inv : St -> Prop) (iter : St -> list nat -> list nat) (U : list nat) (E : nat -> nat -> Prop)
    (SEP : nat -> list nat -> nat -> Prop) (T : nat) (st : St) :
  SEP = pearl E \/ SEP = library_rule E ->
  dag_over U E -> decides ci U Inv SEP -> ranks_dependent_first heur gt U Inv SEP -> iterates iter -> In T U -> Inv st ->
  exists MB st', evaluates (iamb_discover_mb ci iter gt heur U T st) (Ok (MB, st')) /\ lists MB (markov_boundary E T).
Proof.
  intros HSEP HD Hci (high & Hgt & Hsc) Hit HT Hi.
  destruct (iamb_exact ci iter gt heur U Inv E SEP HD Hit Hci) with (T := T) (st := st) (better := fun Z y => ~ SEP T Z y) (high := fun (_ : list nat) => high)
    as (MB & st' & E1 & _ & HM); auto.
  - intros x Z y H. destruct HSEP as [-> | ->]; [assumption|apply d_sep_d_sep1; assumption].
  - intros x Z y H. destruct HSEP as [-> | ->]; [apply d_sep_d_sep1; assumption|assumption].
  - intros Z y Hq. destruct (Hci st T y Z Hi Hq) as (r & _ & _ & _ & Hr). destruct r; [right; intros H; apply H, Hr; reflexivity|left; rewrite <- Hr; discriminate].
  - intros Z y Ha HS. assert (Hne : T <> y) by (intros <-; destruct Ha; eapply no_loop; eauto; apply HD).
    apply (adjacent_not_sep1 E T (fun z => In z Z) y Hne Ha). destruct HSEP as [-> | ->]; [apply d_sep_d_sep1; assumption|assumption].
  - exists MB, st'. split; [eapply evaluates_from; exact E1|assumption].
Qed.
(** with the shipped DSeparationCITest and DSeparationAsCorrelationHeuristic *)
Theorem C31_iamb_dsep_exact (U : list nat) (E : nat -> nat -> Prop) (b : bn) (iter : env -> list nat -> list nat) (T : nat) :
  NoDup U -> network_object U E b -> acyclic E -> iterates iter -> In T U ->
  exists K, forall n, K <= n -> exists MB st',
    iamb_discover_mb (dsep_ci n) iter q_gt (dsep_heuristic n) U T (fresh b) n = Ok (MB, st') /\ lists MB (markov_boundary E T).
Proof. apply iamb_dsep. Qed.
(** with the shipped DSeparationCITest and BNCorrelationEstimator, if the graph hangs together *)
Theorem C31_iamb_estimator_exact (U : list nat) (E : nat -> nat -> Prop) (b : bn) (iter : env -> list nat -> list nat) (T : nat) :
  NoDup U -> network_object U E b -> acyclic E -> iterates iter -> In T U -> (forall y, In y U -> connected E T y) ->
  exists K, forall n, K <= n -> exists MB st',
    iamb_discover_mb (dsep_ci n) iter q_gt (bn_correlation n) U T (fresh b) n = Ok (MB, st') /\ lists MB (markov_boundary E T).
Proof. apply iamb_estimator. Qed.

(** *** C32 the path-length correlation estimate *)
Theorem C32_correlation_estimate (U : list nat) (E : nat -> nat -> Prop) (b : bn) (x y : nat) (Z : list nat) :
  network_object U E b -> In x U ->
  exists K, forall n, K <= n ->
    (Z <> [] -> library_rule E x Z y -> exists st', bn_correlation n (fresh b) x y Z = (Ok 0%Q, st')) /\
    (Z = [] \/ ~ library_rule E x Z y -> connected E x y -> exists k v st',
        distance_nodes E x y k /\ bn_correlation n (fresh b) x y Z = (Ok v, st') /\ (v == 1 / inject_Z (Z.of_nat k))%Q /\ (0 < v <= 1)%Q) /\
    (~ connected E x y -> Z = [] -> exists st', bn_correlation n (fresh b) x y Z = (Err ValueError, st')).
Proof.
  intros Hb Hx. destruct (object_good U E b Hb) as (N & Hg & HU). exists (total_fuel (graph_u b) U). intros n Hn.
  destruct (total_fuel_ok (graph_u b) U) as (Hf1 & Hf2).
  assert (Hf : forall x, In x U -> fuel_for (graph_u b) x <= n) by (intros w Hw; specialize (Hf1 w Hw); lia).
  assert (Hi : env_inv E N (graph_u b) (fresh b)) by (split; [assumption|reflexivity]).
  destruct (bn_correlation_ok U E N _ n Hf (fresh b) x y Z Hi Hx) as [(HZ & Hs & st' & Es & _)|[(HZ & Hc & k & st' & Es & Hd & _)|(HZ & Hc & st' & Es & _)]].
  - split; [eauto|]. split; [intros [?|?]; contradiction|]. intros _ ?; contradiction.
  - split; [intros H1 H2; destruct HZ; contradiction|]. split; [|contradiction]. intros _ _. exists k, (inv_len k), st'.
    split; [assumption|]. split; [assumption|]. split; [reflexivity|]. pose proof (distance_pos _ _ _ _ Hd). split; [apply inv_len_pos|apply inv_len_range]; assumption.
  - split; [contradiction|]. split; [contradiction|]. eauto.
Qed.
(** a variable in another component makes IAMB with this heuristic fail *)
Theorem C32_iamb_fails_if_disconnected (U : list nat) (E : nat -> nat -> Prop) (b : bn) (iter : env -> list nat -> list nat) (T : nat) :
  network_object U E b -> iterates iter -> In T U -> (exists y, In y U /\ ~ connected E T y) ->
  exists K, forall n, K <= n -> iamb_discover_mb (dsep_ci n) iter q_gt (bn_correlation n) U T (fresh b) n = Err ValueError.
Proof. apply iamb_estimator_fails. Qed.

(** *** C33 PCMB always terminates but never returns a non-empty boundary *)
Theorem C33_pcmb_terminates {Score} ci (heur : nat -> nat -> list nat -> res Score) less iter T U :
  (forall l, Permutation l (iter l)) -> (forall x y Z, ci x y Z <> Err OutOfFuel) -> (forall x y Z, heur x y Z <> Err OutOfFuel) ->
  exists r, evaluates (pcmb_discover_mb ci heur less iter T U) r.
Proof. intros H1 H2 H3. apply pcmb_terminates; assumption. Qed.
Theorem C33_pcmb_never_returns_a_boundary {Score} ci (heur : nat -> nat -> list nat -> res Score) less iter T U MB :
  (forall l, Permutation l (iter l)) -> evaluates (pcmb_discover_mb ci heur less iter T U) (Ok MB) -> MB = [].
Proof. intros H1 (_ & n & H). eapply pcmb_only_empty; [exact H1|]. apply (H n). lia. Qed.

(** *** C34 SetCache *)
Definition sc_run (adds : list (list nat * list nat)) : setcache := fold_left (fun c a => sc_add (fst a) (snd a) c) adds [].
(** the value of the last add whose elements form the same set as [k] *)
Fixpoint last_add (k : list nat) (adds : list (list nat * list nat)) : option (list nat) :=
  match adds with
  | [] => None
  | (v, k') :: adds' => match last_add k adds' with
                        | Some v' => Some v'
                        | None => if same_set_dec k k' then Some v else None
                        end
  end.
Theorem C34_setcache_is_a_map_keyed_by_sets adds k :
  sc_get k (sc_run adds) = of_option KeyError (last_add k adds) /\
  sc_contains k (sc_run adds) = match last_add k adds with Some _ => true | None => false end.
Proof.
  assert (G : forall c, sc_get k (fold_left (fun c a => sc_add (fst a) (snd a) c) adds c) =
    match last_add k adds with Some v => Ok v | None => sc_get k c end).
  { induction adds as [|(v & k') adds IH]; intros c; simpl; [reflexivity|]. rewrite IH. destruct (last_add k adds); [reflexivity|].
    destruct (same_set_dec k k'); [apply sc_get_add_same; assumption|apply sc_get_add_other; assumption]. }
  assert (E : sc_get k (sc_run adds) = of_option KeyError (last_add k adds)).
  { unfold sc_run. rewrite G. destruct (last_add k adds); reflexivity. }
  split; [exact E|]. destruct (last_add k adds) as [v|]; simpl in E.
  - apply sc_contains_get. eauto.
  - destruct (sc_contains k (sc_run adds)) eqn:Ec; [|reflexivity]. apply sc_contains_get in Ec as (v & Ev). congruence.
Qed.
