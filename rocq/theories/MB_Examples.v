(** Concrete cases that meet the hypotheses of C27-C34. *)
From Verif Require Import Base Graph_Model Graph_Spec Graph_History_Model Graph_Dsep_Proofs Graph_Paths_Proofs Graph_History_Proofs
  MB_Model MB_Spec MB_Cache_Proofs DAG_Sep_Proofs IPCMB_Proofs IAMB_Proofs DSep_Model DSep_Spec DSep_Proofs PCMB_Model MB_Properties.
Local Open Scope nat_scope.

(** an inconsistent CI test: answers, contradicts itself, or gives up, in turn *)
Definition moody (st : nat) (x y : nat) (Z : list nat) : res bool * nat :=
  ((match st mod 7 with 2 => Ok true | 3 => Err InsufficientSamples | _ => Ok false end), S st).
Lemma moody_answers V : answers_sensibly moody V (fun _ => True).
Proof.
  intros st x y Z _ _. eexists _, _. split; [reflexivity|]. split; [trivial|]. destruct (st mod 7) as [|[|[|[|]]]]; auto.
Qed.
Definition five := [0; 1; 2; 3; 4].
Theorem C27_nonvacuous :
  answers_sensibly moody five (fun _ => True) /\ iterates (fun (_ : nat * list (nat * nat * list nat)) l => rev l) /\ NoDup five /\
  exists st, ipcmb_discover_mb (logged moody) (fun _ l => rev l) false five 2 (0, []) 20 = Ok ([1; 4], st) /\ length (snd st) = 23.
Proof.
  split; [apply moody_answers|]. split; [intros st l; apply Permutation_rev|]. split; [repeat constructor; simpl; intuition lia|].
  eexists. split; vm_compute; reflexivity.
Qed.
Theorem C30_nonvacuous : exists st,
  iamb_discover_mb moody (fun _ l => rev l) Nat.ltb (fun st x y Z => (Ok (st * y), st)) five 2 4 20 = Ok ([0; 1; 4], st).
Proof. eexists. vm_compute. reflexivity. Qed.

(** 0 -> 2 <- 1, 2 -> 3: here the library's rule is Pearl's *)
Definition gY : graph := [(0, [2]); (1, [2]); (2, [3])].
Definition four := [0; 1; 2; 3].
Lemma gY_edges u v : edge_of gY u v -> In (u, v) [(0,2); (1,2); (2,3)].
Proof. intros H. edges H; simpl; tauto. Qed.
Lemma gY_edges' u v : In (u, v) [(0,2); (1,2); (2,3)] -> edge_of gY u v.
Proof. simpl. intros [H|[H|[H|[]]]]; injection H as <- <-; (eexists; split; [reflexivity|simpl; tauto]). Qed.
Lemma gY_acyclic : acyclic (edge_of gY).
Proof.
  apply (dict_acyclic gY (fun n => n)). intros u v H. apply gY_edges in H. simpl in H.
  repeat (destruct H as [H|H]; [injection H as <- <-; simpl; lia|]). destruct H.
Qed.
Lemma gY_dict : dict_ok gY. Proof. unfold dict_ok; simpl; repeat constructor; simpl; intuition lia. Qed.
Lemma gY_order : order_ok four gY.
Proof.
  split; [unfold four; repeat constructor; simpl; intuition lia|]. intros n. split.
  - intros [<-|[<-|[<-|[<-|[]]]]]; try (left; simpl; tauto). right. exists 2. apply gY_edges'. simpl; tauto.
  - intros [[<-|[<-|[<-|[]]]]|(u & H)]; try (simpl; tauto). apply gY_edges in H. simpl in *. intuition congruence.
Qed.
Lemma gY_object : network_object four (edge_of gY) (new_bn four gY).
Proof. right. exists gY, four. split; [apply gY_dict|]. split; [apply gY_order|]. split; [reflexivity|]. split; reflexivity. Qed.
Lemma gY_pearl x Z y : library_rule (edge_of gY) x Z y <-> pearl (edge_of gY) x Z y.
Proof.
  split; [|apply d_sep_d_sep1]. apply agree_when_children_suffice.
  intros b d (a & c & H1 & H2) Hd HZ. apply clos_rt_rt1n in Hd. destruct Hd as [|w d Hw Hd]; [auto|]. right.
  destruct Hd as [|v d Hv Hd]; [eauto|]. exfalso. apply gY_edges in H1, Hw, Hv. simpl in *. intuition congruence.
Qed.
Definition invY := env_inv (edge_of gY) (all_nodes gY) (graph_u (new_bn four gY)).
Lemma decides_ext {St} (ci : St -> nat -> nat -> list nat -> res bool * St) U Inv S1 S2 : (forall x Z y, S1 x Z y <-> S2 x Z y) -> decides ci U Inv S1 -> decides ci U Inv S2.
Proof.
  intros HS H st x y Z Hi Hq. destruct (H st x y Z Hi Hq) as (r & st' & E & Hi' & Hr). exists r, st'. rewrite <- HS. auto.
Qed.
Lemma gY_decides : decides (dsep_ci 20) four invY (pearl (edge_of gY)).
Proof.
  eapply decides_ext; [apply gY_pearl|]. apply dsep_ci_decides.
  intros x [<-|[<-|[<-|[<-|[]]]]]; vm_compute; lia.
Qed.
Theorem C28_nonvacuous :
  dag_over four (edge_of gY) /\ decides (dsep_ci 20) four invY (pearl (edge_of gY)) /\ invY (fresh (new_bn four gY)) /\
  (exists st, ipcmb_discover_mb (dsep_ci 20) sorted_iter false four 0 (fresh (new_bn four gY)) 20 = Ok ([1; 2], st)) /\
  (exists st, ipcmb_discover_mb (dsep_ci 20) sorted_iter true four 0 (fresh (new_bn four gY)) 20 = Ok ([2], st)).
Proof.
  split; [eapply object_dag; [|apply gY_object|apply gY_acyclic]; unfold four; repeat constructor; simpl; intuition lia|].
  split; [apply gY_decides|]. split; [split; [apply new_bn_good; [apply gY_dict|apply gY_order]|reflexivity]|].
  split; eexists; vm_compute; reflexivity.
Qed.
Theorem C29_nonvacuous : NoDup nodesX /\ network_object nodesX (edge_of gX) (new_bn nodesX gX) /\ acyclic (edge_of gX) /\
  exists st, ipcmb_discover_mb (dsep_ci 40) sorted_iter true nodesX 0 (fresh (new_bn nodesX gX)) 40 = Ok ([4; 5], st).
Proof.
  split; [unfold nodesX; repeat constructor; simpl; intuition lia|]. split; [apply gX_object|]. split; [apply gX_acyclic|]. eexists. vm_compute. reflexivity.
Qed.
Theorem C31_nonvacuous :
  ranks_dependent_first (dsep_heuristic 20) q_gt four invY (pearl (edge_of gY)) /\
  (exists st, iamb_discover_mb (dsep_ci 20) sorted_iter q_gt (dsep_heuristic 20) four 0 (fresh (new_bn four gY)) 20 = Ok ([1; 2], st)) /\
  (exists st, iamb_discover_mb (dsep_ci 40) sorted_iter q_gt (dsep_heuristic 40) nodesX 0 (fresh (new_bn nodesX gX)) 40 = Ok ([1; 4; 5], st)) /\
  (exists st, iamb_discover_mb (dsep_ci 40) sorted_iter q_gt (bn_correlation 40) nodesX 0 (fresh (new_bn nodesX gX)) 40 = Ok ([1; 4; 5], st)) /\
  (forall y, In y four -> connected (edge_of gY) 0 y).
Proof.
  split; [|split; [eexists; vm_compute; reflexivity|]; split; [eexists; vm_compute; reflexivity|]; split; [eexists; vm_compute; reflexivity|]].
  - exists (fun s => (0 < s)%Q). split; [intros a c Ha Hc; apply q_gt_lt; apply Qnot_lt_le in Hc; eapply Qle_lt_trans; eauto|].
    intros st x y Z Hs Hq. destruct (dsep_heuristic_ok four (edge_of gY) (all_nodes gY) (graph_u (new_bn four gY)) 20) with (st := st) (x := x) (y := y) (Z := Z)
      as (s & st' & Es & Hs' & H1 & H0); [intros w [<-|[<-|[<-|[<-|[]]]]]; vm_compute; lia|assumption|assumption|].
    exists s, st'. split; [assumption|]. split; [assumption|]. rewrite gY_pearl in H1, H0.
    destruct (gY_decides st x y Z Hs Hq) as (r & _ & _ & _ & Hr). destruct r.
    + assert (Hp : pearl (edge_of gY) x Z y) by (apply Hr; reflexivity). assert (Es0 : s = 0%Q) by (apply H0; assumption). rewrite Es0.
      split; [intros H'; apply Qlt_irrefl in H'; destruct H'|contradiction].
    + assert (Hp : ~ pearl (edge_of gY) x Z y) by (rewrite <- Hr; discriminate). assert (Es1 : s = 1%Q) by (apply H1; assumption). rewrite Es1. split; [auto|reflexivity].
  - assert (H02 : adjacent (edge_of gY) 0 2) by (left; apply gY_edges'; simpl; tauto).
    assert (H21 : adjacent (edge_of gY) 2 1) by (right; apply gY_edges'; simpl; tauto).
    assert (H23 : adjacent (edge_of gY) 2 3) by (left; apply gY_edges'; simpl; tauto).
    intros y [<-|[<-|[<-|[<-|[]]]]]; [apply rt_refl|eapply rt_trans; apply rt_step; eassumption|apply rt_step; assumption|eapply rt_trans; apply rt_step; eassumption].
Qed.
(** two unconnected nodes *)
Theorem C32_nonvacuous :
  fst (bn_correlation 20 (fresh (new_bn four gY)) 0 3 []) = Ok (1 # 3)%Q /\
  fst (bn_correlation 20 (fresh (new_bn four gY)) 0 3 [2]) = Ok 0%Q /\
  fst (bn_correlation 20 (fresh (new_bn [0; 1] [(0, []); (1, [])])) 0 1 []) = Err ValueError /\
  network_object [0; 1] (edge_of [(0, []); (1, [])]) (new_bn [0; 1] [(0, []); (1, [])]) /\ ~ connected (edge_of [(0, []); (1, [])]) 0 1.
Proof.
  split; [vm_compute; reflexivity|]. split; [vm_compute; reflexivity|]. split; [vm_compute; reflexivity|].
  assert (He : forall u v, ~ edge_of [(0, []); (1, [])] u v) by (intros u v H; edges H).
  split.
  - right. exists [(0, []); (1, [])], [0; 1]. split; [unfold dict_ok; simpl; repeat constructor; simpl; intuition lia|]. split.
    + split; [repeat constructor; simpl; intuition lia|]. intros n. split; [intros H; left; exact H|]. intros [H|(u & H)]; [exact H|]. exfalso. eapply He; eauto.
    + split; [reflexivity|]. split; reflexivity.
  - intros H. apply clos_rt_rt1n in H. assert (Hs : forall a b, clos_refl_trans_1n nat (adjacent (edge_of [(0, []); (1, [])])) a b -> a = b).
    { intros a b Hab. destruct Hab as [|z d [H1|H1] _]; [reflexivity| |]; exfalso; eapply He; eauto. }
    apply Hs in H. discriminate H.
Qed.
(** PCMB fails both on two dependent variables and on two independent ones *)
Definition ci01 (x y : nat) (Z : list nat) : res bool := Ok false.
Theorem C33_nonvacuous :
  pcmb_discover_mb ci01 (fun _ _ _ => Ok 1) Nat.ltb (fun l => l) 0 [0; 1] 10 = Err KeyError /\
  pcmb_discover_mb (fun _ _ _ => Ok true) (fun _ _ _ => Ok 1) Nat.ltb (fun l => l) 0 [0; 1] 10 = Err ValueError.
Proof. split; vm_compute; reflexivity. Qed.
Theorem C34_nonvacuous : sc_get [3; 1; 3] (sc_run [([7], [1; 3]); ([8], [2; 3]); ([9], [3; 1])]) = Ok [9] /\
  sc_get [5] (sc_run [([7], [1; 3])]) = Err KeyError.
Proof. split; vm_compute; reflexivity. Qed.
