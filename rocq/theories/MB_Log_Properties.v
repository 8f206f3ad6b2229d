(** C52, C30, C16: the results of IPC-MB and IAMB can be read off the answers of the CI test. *)
From Verif Require Import Base Graph_Model Graph_Spec MB_Model MB_Spec MB_Cache_Proofs IPCMB_Proofs IAMB_Proofs DSep_Model DSep_Spec DSep_Proofs
  MB_Log_Spec MB_Log_Proofs IAMB_Log_Proofs MB_Properties.
Local Open Scope nat_scope.

(** a fuel at which a computation shows its value *)
Lemma evaluates_at {A} (f : nat -> res A) a : evaluates f (Ok a) -> exists n, f n = Ok a.
Proof. intros (_ & n & H). exists n. apply H. lia. Qed.

(** *** C52: parents and children are exactly the variables never found independent of the target (and for
    which no test lacked samples), of any CI test that keeps the list of its answers *)
Theorem C52_ipcmb_parents_children_explained {St} (ci : St -> nat -> nat -> list nat -> res bool * St) (L : St -> list answered) (Inv : St -> Prop)
    (iter : St -> list nat -> list nat) (U V : list nat) (T : nat) (st : St) :
  answers_sensibly ci V Inv -> keeps_log ci L -> iterates iter -> NoDup U -> incl U V -> In T U -> Inv st -> L st = [] ->
  exists PC st', evaluates (ipcmb_discover_mb ci iter true U T st) (Ok (PC, st')) /\
    forall x, In x PC <-> In x U /\ x <> T /\ (exists e, In e (L st') /\ about x T e) /\ forall e, In e (L st') -> about x T e -> says e = Ok false.
Proof.
  intros Hci HL Hit HN HU HT Hi H0. destruct (ipcmb_total ci iter V Inv true U T st Hci Hit HN HU (HU T HT) Hi) as (PC & st' & E & _).
  pose proof (evaluates_from _ _ _ E) as Ev. exists PC, st'. split; [exact Ev|]. destruct (evaluates_at _ _ Ev) as (n & En). intros x.
  exact (ipcmb_pc_log ci L HL iter Hit U T st PC st' n H0 HN HT En x).
Qed.
(** ... and the boundary consists of the variables whose last answer was "dependent"; conversely if no test
    lacked samples.  Every variable was asked about. *)
Theorem C52_ipcmb_boundary_explained {St} (ci : St -> nat -> nat -> list nat -> res bool * St) (L : St -> list answered) (Inv : St -> Prop)
    (iter : St -> list nat -> list nat) (U V : list nat) (T : nat) (st : St) :
  answers_sensibly ci V Inv -> keeps_log ci L -> iterates iter -> NoDup U -> incl U V -> In T U -> Inv st -> L st = [] ->
  exists MB st', evaluates (ipcmb_discover_mb ci iter false U T st) (Ok (MB, st')) /\
    (forall x, In x MB -> last_answer (L st') x T (Ok false)) /\
    ((forall e, In e (L st') -> says e <> Err InsufficientSamples) -> forall x, In x U -> x <> T -> last_answer (L st') x T (Ok false) -> In x MB) /\
    (forall x, In x U -> x <> T -> exists e, In e (L st') /\ about x T e).
Proof.
  intros Hci HL Hit HN HU HT Hi H0. destruct (ipcmb_total ci iter V Inv false U T st Hci Hit HN HU (HU T HT) Hi) as (MB & st' & E & _).
  pose proof (evaluates_from _ _ _ E) as Ev. exists MB, st'. split; [exact Ev|]. destruct (evaluates_at _ _ Ev) as (n & En).
  exact (ipcmb_full_log ci L HL iter Hit U T st MB st' n H0 HN HT En).
Qed.
(** IAMB: found dependent, and never found independent after that.  (With insufficient samples in the second
    phase the variable stays.) *)
Theorem C52_iamb_explained {St Score} (ci : St -> nat -> nat -> list nat -> res bool * St) (heur : St -> nat -> nat -> list nat -> res Score * St)
    (gt : Score -> Score -> bool) (L : St -> list answered) (Inv : St -> Prop) (iter : St -> list nat -> list nat) (U V : list nat) (T : nat) (st : St) :
  answers_sensibly ci V Inv -> keeps_log ci L ->
  (forall st x y Z, Inv st -> sensible_question V x y Z -> exists s st', heur st x y Z = (Ok s, st') /\ Inv st') ->
  (forall st x y Z s st', heur st x y Z = (Ok s, st') -> L st' = L st) ->
  iterates iter -> NoDup U -> incl U V -> In T V -> Inv st -> L st = [] ->
  exists MB st', evaluates (iamb_discover_mb ci iter gt heur U T st) (Ok (MB, st')) /\
    (forall x, In x MB <-> exists before Z after, L st' = before ++ (T, x, Z, Ok false) :: after /\ forall Z', ~ In (T, x, Z', Ok true) after) /\
    (forall a b Z r, In (a, b, Z, r) (L st') -> a = T /\ In b U /\ b <> T).
Proof.
  intros Hci HL Hh HLh Hit HN HU HT Hi H0. destruct (iamb_total ci iter gt heur V Inv U T st Hci Hh Hit HN HU HT Hi) as (MB & st' & E & _).
  pose proof (evaluates_from _ _ _ E) as Ev. exists MB, st'. split; [exact Ev|]. destruct (evaluates_at _ _ Ev) as (n & En).
  exact (iamb_log ci L HL iter Hit gt heur HLh U T st MB st' n H0 HN En).
Qed.

(** *** C30: every variable that IAMB returns was found dependent on the target during this very run, whatever
    CI test and heuristic are used (the answers are written down by [recorded]) *)
Lemma recorded_keeps {St} (ci : St -> nat -> nat -> list nat -> res bool * St) : keeps_log (recorded ci) snd.
Proof. intros (st & log) x y Z r (st' & log') H _. unfold recorded in H. cbn [fst snd] in *. destruct (ci st x y Z) as (r1 & st1). injection H as <- _ <-. reflexivity. Qed.
Lemma recorded_sensible {St} (ci : St -> nat -> nat -> list nat -> res bool * St) V Inv : answers_sensibly ci V Inv -> answers_sensibly (recorded ci) V (fun sl => Inv (fst sl)).
Proof. intros H (st & log) x y Z Hi Hq. unfold recorded. cbn [fst snd] in *. destruct (H st x y Z Hi Hq) as (r & st' & E & Hi' & Hr). rewrite E. exists r, (st', log ++ [(x, y, Z, r)]). auto. Qed.
Theorem C30_iamb_returns_dependent_variables {St Score} (ci : St -> nat -> nat -> list nat -> res bool * St) (heur : St -> nat -> nat -> list nat -> res Score * St)
    (gt : Score -> Score -> bool) (Inv : St -> Prop) (iter : St * list answered -> list nat -> list nat) (U V : list nat) (T : nat) (st : St) :
  answers_sensibly ci V Inv ->
  (forall st x y Z, Inv st -> sensible_question V x y Z -> exists s st', heur st x y Z = (Ok s, st') /\ Inv st') ->
  iterates iter -> NoDup U -> incl U V -> In T V -> Inv st ->
  exists MB st' log, evaluates (iamb_discover_mb (recorded ci) iter gt (unrecorded heur) U T (st, [])) (Ok (MB, (st', log))) /\
    StronglySorted lt MB /\
    (forall x, In x MB <-> exists before Z after, log = before ++ (T, x, Z, Ok false) :: after /\ forall Z', ~ In (T, x, Z', Ok true) after) /\
    (forall a b Z r, In (a, b, Z, r) log -> a = T /\ In b U /\ b <> T).
Proof.
  intros Hci Hh Hit HN HU HT Hi.
  assert (Hh' : forall sl x y Z, Inv (fst sl) -> sensible_question V x y Z -> exists s sl', unrecorded heur sl x y Z = (Ok s, sl') /\ Inv (fst sl')).
  { intros (s & l) x y Z Hs Hq. destruct (Hh s x y Z Hs Hq) as (v & s' & E & Hs'). exists v, (s', l). unfold unrecorded. cbn [fst snd]. rewrite E. auto. }
  destruct (iamb_total (recorded ci) iter gt (unrecorded heur) V (fun sl => Inv (fst sl)) U T (st, []) (recorded_sensible ci V Inv Hci) Hh' Hit HN HU HT Hi) as (MB & (st' & log) & E & _ & HS & _).
  pose proof (evaluates_from _ _ _ E) as Ev. exists MB, st', log. split; [exact Ev|]. split; [exact HS|]. destruct (evaluates_at _ _ Ev) as (n & En).
  refine (iamb_log (recorded ci) snd (recorded_keeps ci) iter Hit gt (unrecorded heur) _ U T (st, []) MB (st', log) n eq_refl HN En).
  intros (s & l) x y Z v (s' & l') H. unfold unrecorded in H. cbn [fst snd] in *. destruct (heur s x y Z) as (v1 & s1). injection H as _ _ <-. reflexivity.
Qed.

(** *** C16 for the d-separation test: its list of results holds one entry per question, in order, numbered
    from 0, with the variables, the conditioning set and the answer *)
Definition dsep_log (st : env) : list answered := map (fun r => (r_X r, r_Y r, r_Z r, Ok (r_independent r))) (e_ci st).
Definition numbered (st : env) : Prop := forall i r, nth_error (e_ci st) i = Some r -> r_index r = i.

Lemma foldM_noins {A B} (f : A -> B -> res A) : (forall a b, f a b <> Err InsufficientSamples) -> forall l a, foldM f l a <> Err InsufficientSamples.
Proof.
  intros H. induction l as [|b l IH]; intros a; cbn [foldM]; [discriminate|]. destruct (f a b) as [a'|e] eqn:E; cbn [bind]; [apply IH|]. intros G. apply (H a b). rewrite E. congruence.
Qed.
Lemma paths_noins : forall fuel g start stop path c, find_all_paths_cached fuel g start stop path c <> Err InsufficientSamples.
Proof.
  induction fuel as [|fuel IH]; intros g start stop path c; cbn [find_all_paths_cached]; [discriminate|]. destruct (cache_get (start, stop, path) c); [discriminate|].
  destruct (start =? stop); cbn [bind]; [discriminate|]. destruct (gget g start) as [ns|]; cbn [bind]; [|discriminate].
  match goal with |- context [foldM ?f ns ?a] => pose proof (foldM_noins f) as H; specialize (H ltac:(idtac; intros pc node; cbv beta; destruct (mem node _); [discriminate|]; match goal with |- context [find_all_paths_cached ?a1 ?a2 ?a3 ?a4 ?a5 ?a6] => pose proof (IH a2 a3 a4 a5 a6); destruct (find_all_paths_cached a1 a2 a3 a4 a5 a6) as [[? ?]|?]; cbn [bind]; congruence end) ns a); destruct (foldM f ns a) as [[? ?]|?]; cbn [bind]; congruence end.
Qed.
Lemma blocked_noins gd S : forall l prev, blocked_loop gd S prev l <> Err InsufficientSamples.
Proof.
  induction l as [|this l IH]; intros prev; [discriminate|]. cbn [blocked_loop]. destruct l as [|next l']; [discriminate|]. destruct (gget gd this) as [ds|]; cbn [of_option bind]; [|discriminate].
  unfold is_node_collider. destruct (gget gd prev) as [lp|]; cbn [of_option bind]; [|discriminate]. destruct (mem this lp); cbn [bind].
  - destruct (gget gd next) as [ln|]; cbn [of_option bind]; [|discriminate]. destruct (if mem this ln then _ else _); [discriminate|apply IH].
  - destruct (mem this S); [discriminate|apply IH].
Qed.
Lemma dsep_noins x y Z b fuel : conditionally_independent x y Z b fuel <> Err InsufficientSamples.
Proof.
  unfold conditionally_independent, d_separated, find_all_undirected_paths. pose proof (paths_noins fuel (graph_u b) x y None (memo b)) as HP. destruct (find_all_paths_cached _ _ _ _ _ _) as [[ps c]|e]; cbn [bind]; [|congruence].
  assert (HD : forall ps, dsep_loop (graph_d b) Z ps <> Err InsufficientSamples).
  { clear. induction ps as [|p ps IH]; cbn [dsep_loop]; [discriminate|]. unfold is_path_blocked_by_nodes. destruct p as [|n l]; cbn [bind]; [discriminate|]. pose proof (blocked_noins (graph_d b) Z l n). destruct (blocked_loop _ _ _ _) as [[|]|e]; cbn [bind]; [apply IH|discriminate|congruence]. }
  specialize (HD ps). destruct (dsep_loop _ _ _); cbn [bind]; congruence.
Qed.
Theorem C16_dsep_test_log : forall fuel st X Y Z r st', dsep_ci fuel st X Y Z = (r, st') ->
  (forall v, r = Ok v -> exists e, e_ci st' = e_ci st ++ [e] /\ r_index e = length (e_ci st) /\ r_X e = X /\ r_Y e = Y /\ r_Z e = Z /\ r_independent e = v) /\
  (forall e, r = Err e -> st' = st /\ e <> InsufficientSamples) /\ (numbered st -> numbered st') /\ e_h st' = e_h st /\ e_est st' = e_est st.
Proof.
  intros fuel st X Y Z r st' H. unfold dsep_ci in H. destruct (conditionally_independent X Y Z (e_bn st) fuel) as [[v b]|e] eqn:E; injection H as <- <-.
  - split; [intros v' Ev; injection Ev as <-; eexists; split; [reflexivity|repeat split]|]. split; [discriminate|]. split; [|split; reflexivity]. intros Hn i r Hi. cbn [e_ci] in Hi.
    destruct (Nat.lt_trichotomy i (length (e_ci st))) as [H|[H|H]].
    + rewrite nth_error_app1 in Hi by assumption. auto.
    + subst i. rewrite nth_error_app2, Nat.sub_diag in Hi by lia. injection Hi as <-. reflexivity.
    + rewrite nth_error_app2 in Hi by lia. destruct (i - length (e_ci st)) as [|[|k]] eqn:Ek; [lia|discriminate|discriminate].
  - split; [discriminate|]. split; [|split; [auto|split; reflexivity]]. intros e' Ee. injection Ee as <-. split; [reflexivity|]. intros ->. exact (dsep_noins X Y Z (e_bn st) fuel E).
Qed.
Theorem C16_dsep_heuristic_log : forall fuel st X Y Z r st', dsep_heuristic fuel st X Y Z = (r, st') ->
  (forall s, r = Ok s -> exists e, e_h st' = e_h st ++ [e] /\ r_index e = length (e_h st) /\ r_X e = X /\ r_Y e = Y /\ r_Z e = Z /\ (s == if r_independent e then 0 else 1)%Q) /\
  (forall e, r = Err e -> st' = st) /\ e_ci st' = e_ci st /\ e_est st' = e_est st.
Proof.
  intros fuel st X Y Z r st' H. unfold dsep_heuristic in H. destruct (conditionally_independent X Y Z (e_bn st) fuel) as [[v b]|e]; injection H as <- <-.
  - split; [|repeat split; try discriminate]. intros s Es. injection Es as <-. eexists. split; [reflexivity|]. cbn [r_index r_X r_Y r_Z r_independent]. repeat split; reflexivity.
  - split; [discriminate|]. repeat split.
Qed.
(** the estimator writes down what it computes from paths, and nothing when the conditioning set separates *)
Theorem C16_estimator_log : forall fuel st X Y Z r st', bn_correlation fuel st X Y Z = (r, st') ->
  (e_est st' = e_est st \/ exists v e, r = Ok v /\ e_est st' = e_est st ++ [e] /\ h_index e = length (e_est st) /\ h_X e = X /\ h_Y e = Y /\ h_Z e = Z /\ h_value e = v) /\
  (forall v, r = Ok v -> ~ (v == 0)%Q -> e_est st' <> e_est st) /\ e_ci st' = e_ci st /\ e_h st' = e_h st.
Proof.
  intros fuel st X Y Z r st' H.
  assert (G : forall b r st', estimate fuel st b X Y Z = (r, st') -> (e_est st' = e_est st \/ exists v e, r = Ok v /\ e_est st' = e_est st ++ [e] /\ h_index e = length (e_est st) /\ h_X e = X /\ h_Y e = Y /\ h_Z e = Z /\ h_value e = v) /\
    (forall v, r = Ok v -> ~ (v == 0)%Q -> e_est st' <> e_est st) /\ e_ci st' = e_ci st /\ e_h st' = e_h st).
  { clear H r st'. intros b r st' H. unfold estimate in H. destruct (find_all_undirected_paths X Y b fuel) as [[ps b']|e]; [destruct (shortest_path ps) as [p|e]|]; injection H as <- <-.
    - split; [right; eexists _, _; repeat (split; [reflexivity|]); reflexivity|]. split; [|split; reflexivity]. intros v Ev _ Eq. cbn [e_est] in Eq. apply (f_equal (@length _)) in Eq. rewrite app_length in Eq. cbn in Eq. lia.
    - split; [left; reflexivity|]. split; [discriminate|split; reflexivity].
    - split; [left; reflexivity|]. split; [discriminate|split; reflexivity]. }
  unfold bn_correlation in H. destruct Z as [|z Z]; [exact (G _ _ _ H)|]. destruct (conditionally_independent X Y (z :: Z) (e_bn st) fuel) as [[[|] b]|e]; [|exact (G _ _ _ H)|]; injection H as <- <-.
  - split; [left; reflexivity|]. split; [|split; reflexivity]. intros v Ev Hv. injection Ev as <-. exfalso. apply Hv. reflexivity.
  - split; [left; reflexivity|]. split; [discriminate|split; reflexivity].
Qed.

(** IPC-MB with the d-separation test: the test's own list of results explains the result. *)
Lemma dsep_keeps fuel : keeps_log (dsep_ci fuel) dsep_log.
Proof.
  intros st x y Z r st' H Hn. destruct (C16_dsep_test_log _ _ _ _ _ _ _ H) as (H1 & H2 & _). destruct r as [v|e].
  - destruct (H1 v eq_refl) as (e & E & _ & <- & <- & <- & <-). unfold dsep_log. rewrite E, map_app. reflexivity.
  - exfalso. apply (proj2 (H2 e eq_refl)). apply Hn. reflexivity.
Qed.
Theorem C52_dsep_parents_children_explained (U : list nat) (E : nat -> nat -> Prop) (b : bn) (iter : env -> list nat -> list nat) (T : nat) :
  NoDup U -> network_object U E b -> acyclic E -> iterates iter -> In T U ->
  exists K, forall n, K <= n -> exists PC st', ipcmb_discover_mb (dsep_ci n) iter true U T (fresh b) n = Ok (PC, st') /\
    (forall x, In x PC <-> In x U /\ x <> T /\ (exists e, In e (dsep_log st') /\ about x T e) /\ forall e, In e (dsep_log st') -> about x T e -> says e = Ok false) /\
    lists PC (parent_or_child E T).
Proof.
  intros HN Hb Hac Hit HT. destruct (C29_ipcmb_dsep_parents_children U E b iter T HN Hb Hac Hit HT) as (PC & HPC & K & H). exists K. intros n Hn. destruct (H n Hn) as (st' & Er).
  exists PC, st'. split; [exact Er|]. split; [|exact HPC]. intros x. exact (ipcmb_pc_log (dsep_ci n) dsep_log (dsep_keeps n) iter Hit U T (fresh b) PC st' n eq_refl HN HT Er x).
Qed.
Example C52_nonvacuous : exists st', ipcmb_discover_mb (dsep_ci 40) sorted_iter false nodesX 0 (fresh (new_bn nodesX gX)) 40 = Ok ([1; 4; 5; 6], st') /\
  last_answer (dsep_log st') 6 0 (Ok false).
Proof.
  destruct gX_run as (st' & E). exists st'. split; [exact E|].
  apply (proj1 (ipcmb_full_log (dsep_ci 40) dsep_log (dsep_keeps 40) sorted_iter sorted_iterates nodesX 0 (fresh (new_bn nodesX gX)) [1; 4; 5; 6] st' 40 eq_refl ltac:(unfold nodesX; repeat constructor; simpl; intuition lia) ltac:(simpl; tauto) E)).
  simpl. tauto.
Qed.
Print Assumptions C52_ipcmb_parents_children_explained.
Print Assumptions C52_ipcmb_boundary_explained.
Print Assumptions C52_iamb_explained.
Print Assumptions C30_iamb_returns_dependent_variables.
