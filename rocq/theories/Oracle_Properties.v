(** C76: tests and heuristics that answer from a known network, in any order of questions, and what they leave behind. *)
From Verif Require Import Base Graph_Model Graph_Spec Graph_History_Model Graph_Paths_Proofs Graph_Build_Proofs Graph_Dsep_Proofs Graph_History_Proofs
  MB_Model MB_Spec MB_Cache_Proofs DAG_Sep_Proofs IPCMB_Proofs IPCMB_Exact_Proofs IAMB_Proofs DSep_Model DSep_Spec DSep_Proofs MB_Examples Oracle_Model Oracle_Spec.
Local Open Scope nat_scope.

Lemma numbered_snoc {A} (index : A -> nat) l x : numbered index l -> index x = length l -> numbered index (l ++ [x]).
Proof. unfold numbered. intros H E. rewrite map_app, app_length, H. cbn [map length]. rewrite E, seq_app. reflexivity. Qed.
Lemma inv_len_nonzero n : n <> 0 -> Qeq_bool (inv_len n) 0 = false.
Proof. intros H. destruct (Qeq_bool (inv_len n) 0) eqn:E; [|reflexivity]. apply Qeq_bool_eq in E. pose proof (inv_len_pos n H) as P. rewrite E in P. discriminate P. Qed.
Lemma distance_fun E x y n m : distance_nodes E x y n -> distance_nodes E x y m -> n = m.
Proof. intros [(p & [Hp _] & Lp) Mp] [(q & [Hq _] & Lq) Mq]. specialize (Mp _ Hq). specialize (Mq _ Hp). lia. Qed.

Definition ci_entry (r : ci_result) := (r_X r, r_Y r, r_Z r, r_independent r).
Definition h_entry (r : h_result) := (h_X r, h_Y r, h_Z r, h_value r).
(** what one question adds to the logs *)
Definition grown (st st' : env) (q : request) (a : answer) : Prop :=
  map ci_entry (e_ci st') = map ci_entry (e_ci st) ++ verdicts [(q, a)] /\
  map ci_entry (e_h st') = map ci_entry (e_h st) ++ separations [(q, a)] /\
  map h_entry (e_est st') = map h_entry (e_est st) ++ estimates [(q, a)] /\
  (numbered r_index (e_ci st) -> numbered r_index (e_ci st')) /\ (numbered r_index (e_h st) -> numbered r_index (e_h st')) /\
  (numbered h_index (e_est st) -> numbered h_index (e_est st')).

Section Session.
  Variables (U : list nat) (E : nat -> nat -> Prop) (N : list nat) (gu0 : graph) (fuel : nat).
  Hypothesis Hfuel : forall x, In x U -> fuel_for gu0 x <= fuel.
  Notation inv := (env_inv E N gu0).

  Lemma estimate_logged st b x y Z : good_bn E N b -> graph_u b = gu0 -> In x U ->
    (exists st', estimate fuel st b x y Z = (Err ValueError, st') /\ ~ connected E x y /\ inv st' /\ grown st st' (AskEst x y Z) (Number (Err ValueError))) \/
    (exists n st', estimate fuel st b x y Z = (Ok (inv_len n), st') /\ distance_nodes E x y n /\ inv st' /\ grown st st' (AskEst x y Z) (Number (Ok (inv_len n)))).
  Proof.
    intros Hg Hu Hx. unfold estimate. destruct (undirected_paths_ok E N b x y Hg) as (ps & b' & Ep & Hg' & _ & Hu' & _ & Hps & _).
    rewrite Ep by (rewrite Hu; apply Hfuel; assumption).
    destruct (shortest_ok E x y ps Hps) as [(-> & Hc)|(p & -> & Hd)].
    - left. eexists. split; [reflexivity|]. split; [assumption|]. split; [split; simpl; [assumption|congruence]|].
      unfold grown. cbn [e_ci e_h e_est verdicts separations estimates flat_map app]. rewrite !app_nil_r. repeat (split; [reflexivity || (intros ?; assumption)|]). intros ?; assumption.
    - right. exists (length p). eexists. split; [reflexivity|]. split; [assumption|]. split; [split; simpl; [assumption|congruence]|].
      unfold grown. cbn [e_ci e_h e_est verdicts separations estimates flat_map app]. rewrite (inv_len_nonzero (length p)) by (eapply distance_pos; eassumption).
      rewrite !app_nil_r, map_app. split; [reflexivity|]. split; [reflexivity|]. split; [reflexivity|]. split; [auto|]. split; [auto|]. intros H. apply numbered_snoc; [exact H|reflexivity].
  Qed.
  Lemma ask_ok st q : inv st -> In (about q) U -> exists a st', ask fuel st q = (a, st') /\ inv st' /\ right_answer E q a /\ grown st st' q a.
  Proof.
    intros (Hg & Hu) Hx. destruct q as [X Y Z|X Y Z|X Y Z]; cbn [about] in Hx; unfold ask.
    - unfold dsep_ci, conditionally_independent. destruct (d_separated_ok E N (e_bn st) X Z Y Hg) as (r & b' & Ed & Hg' & _ & Hu' & Hr).
      rewrite Ed by (rewrite Hu; apply Hfuel; assumption). fold (library_rule E X Z Y) in Hr.
      eexists _, _. split; [reflexivity|]. split; [split; simpl; [assumption|congruence]|]. split.
      + cbn [right_answer]. destruct r; [left; split; [apply Hr; reflexivity|reflexivity]|right; split; [rewrite <- Hr; discriminate|reflexivity]].
      + unfold grown. cbn [e_ci e_h e_est verdicts separations estimates flat_map app]. rewrite !app_nil_r, map_app. split; [reflexivity|]. split; [reflexivity|]. split; [reflexivity|].
        split; [|auto]. intros H. apply numbered_snoc; [exact H|reflexivity].
    - unfold dsep_heuristic, conditionally_independent. destruct (d_separated_ok E N (e_bn st) X Z Y Hg) as (r & b' & Ed & Hg' & _ & Hu' & Hr).
      rewrite Ed by (rewrite Hu; apply Hfuel; assumption). fold (library_rule E X Z Y) in Hr.
      eexists _, _. split; [reflexivity|]. split; [split; simpl; [assumption|congruence]|]. split.
      + cbn [right_answer]. destruct r; [left; split; [apply Hr; reflexivity|reflexivity]|right; split; [rewrite <- Hr; discriminate|reflexivity]].
      + unfold grown. cbn [e_ci e_h e_est verdicts separations estimates flat_map app]. rewrite !app_nil_r, map_app. split; [reflexivity|]. split; [destruct r; reflexivity|]. split; [reflexivity|].
        split; [auto|]. split; [|auto]. intros H. apply numbered_snoc; [exact H|reflexivity].
    - unfold bn_correlation. destruct Z as [|z Z].
      + destruct (estimate_logged st (e_bn st) X Y [] Hg Hu Hx) as [(st' & -> & Hc & Hi & HG)|(n & st' & -> & Hd & Hi & HG)].
        * eexists _, st'. split; [reflexivity|]. split; [exact Hi|]. split; [|exact HG]. right. right. auto.
        * eexists _, st'. split; [reflexivity|]. split; [exact Hi|]. split; [|exact HG]. right. left. split; [auto|]. exists n. split; [exact Hd|reflexivity].
      + unfold conditionally_independent. destruct (d_separated_ok E N (e_bn st) X (z :: Z) Y Hg) as (r & b' & Ed & Hg' & _ & Hu' & Hr).
        rewrite Ed by (rewrite Hu; apply Hfuel; assumption). fold (library_rule E X (z :: Z) Y) in Hr. destruct r.
        * eexists _, _. split; [reflexivity|]. split; [split; simpl; [assumption|congruence]|]. split; [left; split; [discriminate|]; split; [apply Hr; reflexivity|reflexivity]|].
          unfold grown. cbn [e_ci e_h e_est verdicts separations estimates flat_map app]. change (Qeq_bool 0 0) with true. cbn [app]. rewrite !app_nil_r. repeat (split; [reflexivity || (intros ?; assumption)|]). intros ?; assumption.
        * assert (Hn : ~ library_rule E X (z :: Z) Y) by (rewrite <- Hr; discriminate).
          destruct (bn_correlation_ok U E N gu0 fuel Hfuel st X Y (z :: Z) (conj Hg Hu) Hx) as [(_ & C & _)|[(_ & Hc & _)|(C & _)]]; [contradiction| |discriminate].
          destruct (estimate_logged st b' X Y (z :: Z) Hg' ltac:(congruence) Hx) as [(st' & -> & C & _)|(n & st' & -> & Hd & Hi & HG)]; [contradiction|].
          eexists _, st'. split; [reflexivity|]. split; [exact Hi|]. split; [|exact HG]. right. left. split; [auto|]. exists n. split; [exact Hd|reflexivity].
  Qed.
  Lemma grown_trans st st1 st2 q a l : grown st st1 q a ->
    map ci_entry (e_ci st2) = map ci_entry (e_ci st1) ++ verdicts l -> map ci_entry (e_ci st2) = map ci_entry (e_ci st) ++ verdicts ((q, a) :: l).
  Proof. intros (G & _) H. rewrite H, G. unfold verdicts. cbn [flat_map]. rewrite app_nil_r, <- app_assoc. reflexivity. Qed.
  Lemma ask_all_ok qs : forall st, inv st -> Forall (fun q => In (about q) U) qs -> exists l st', ask_all fuel st qs = (l, st') /\ inv st' /\ length l = length qs /\
    Forall (fun qa => right_answer E (fst qa) (snd qa)) (combine qs l) /\
    map ci_entry (e_ci st') = map ci_entry (e_ci st) ++ verdicts (combine qs l) /\
    map ci_entry (e_h st') = map ci_entry (e_h st) ++ separations (combine qs l) /\
    map h_entry (e_est st') = map h_entry (e_est st) ++ estimates (combine qs l) /\
    (numbered r_index (e_ci st) -> numbered r_index (e_ci st')) /\ (numbered r_index (e_h st) -> numbered r_index (e_h st')) /\
    (numbered h_index (e_est st) -> numbered h_index (e_est st')).
  Proof.
    induction qs as [|q qs IH]; intros st Hi F.
    - exists [], st. cbn [combine verdicts separations estimates flat_map]. rewrite !app_nil_r. cbn [ask_all]. repeat (split; [reflexivity || assumption || constructor|]). auto.
    - inversion F as [|? ? Hq F']; subst. destruct (ask_ok st q Hi Hq) as (a & st1 & E1 & Hi1 & R1 & G1 & G2 & G3 & G4 & G5 & G6).
      destruct (IH st1 Hi1 F') as (l & st2 & E2 & Hi2 & L2 & R2 & H1 & H2 & H3 & H4 & H5 & H6). exists (a :: l), st2.
      cbn [ask_all]. rewrite E1, E2. split; [reflexivity|]. split; [exact Hi2|]. split; [cbn; rewrite L2; reflexivity|]. cbn [combine]. split; [constructor; [exact R1|exact R2]|].
      rewrite H1, H2, H3, G1, G2, G3. unfold verdicts, separations, estimates. cbn [flat_map]. rewrite !app_nil_r, <- !app_assoc. repeat (split; [reflexivity|]). auto.
  Qed.
End Session.

Lemma right_answer_fun E q a b : right_answer E q a -> right_answer E q b -> a = b.
Proof.
  destruct q as [X Y Z|X Y Z|X Y Z]; cbn [right_answer]; try (intros [[? ->]|[? ->]] [[? ->]|[? ->]]; tauto).
  intros [(A1 & A2 & ->)|[([A1|A1] & n & A2 & ->)|(A1 & A2 & ->)]] [(B1 & B2 & ->)|[([B1|B1] & m & B2 & ->)|(B1 & B2 & ->)]]; try reflexivity; try contradiction;
    try (rewrite (distance_fun _ _ _ _ _ A2 B2); reflexivity); exfalso.
  all: try (apply B2; destruct A2 as [(p & [Hp _] & _) _]; eapply path_connected; eassumption).
  all: try (apply A2; destruct B2 as [(p & [Hp _] & _) _]; eapply path_connected; eassumption).
Qed.

(** Every question gets the right answer, whatever was asked before of the objects that share the network, and the three
    logs hold exactly the questions put to each object, in order, numbered from 0 -- except that the estimator keeps no
    record of the questions it answers by 0 *)
Theorem C76_any_session (U : list nat) (E : nat -> nat -> Prop) (b : bn) : network_object U E b ->
  exists K, forall n, K <= n -> forall qs, Forall (fun q => In (about q) U) qs ->
    exists l st', ask_all n (fresh b) qs = (l, st') /\ length l = length qs /\
      Forall (fun qa => right_answer E (fst qa) (snd qa)) (combine qs l) /\
      map (fun r => (r_X r, r_Y r, r_Z r, r_independent r)) (e_ci st') = verdicts (combine qs l) /\ numbered r_index (e_ci st') /\
      map (fun r => (r_X r, r_Y r, r_Z r, r_independent r)) (e_h st') = separations (combine qs l) /\ numbered r_index (e_h st') /\
      map (fun r => (h_X r, h_Y r, h_Z r, h_value r)) (e_est st') = estimates (combine qs l) /\ numbered h_index (e_est st').
Proof.
  intros Hb. destruct (object_good U E b Hb) as (N & Hg & HU). exists (total_fuel (graph_u b) U). intros n Hn qs F.
  destruct (total_fuel_ok (graph_u b) U) as (Hf1 & Hf2).
  assert (Hf : forall x, In x U -> fuel_for (graph_u b) x <= n) by (intros w Hw; specialize (Hf1 w Hw); lia).
  assert (Hi : env_inv E N (graph_u b) (fresh b)) by (split; [assumption|reflexivity]).
  destruct (ask_all_ok U E N _ n Hf qs (fresh b) Hi F) as (l & st' & E1 & _ & L & R & H1 & H2 & H3 & H4 & H5 & H6). exists l, st'.
  split; [exact E1|]. split; [exact L|]. split; [exact R|]. split; [exact H1|]. split; [apply H4; reflexivity|]. split; [exact H2|]. split; [apply H5; reflexivity|]. split; [exact H3|apply H6; reflexivity].
Qed.
Print Assumptions C76_any_session.
(** So the answer to a question does not depend on what was asked before *)
Theorem C76_history_does_not_matter (U : list nat) (E : nat -> nat -> Prop) (b : bn) : network_object U E b ->
  exists K, forall n, K <= n -> forall before q, Forall (fun q => In (about q) U) before -> In (about q) U ->
    fst (ask n (snd (ask_all n (fresh b) before)) q) = fst (ask n (fresh b) q).
Proof.
  intros Hb. destruct (object_good U E b Hb) as (N & Hg & HU). exists (total_fuel (graph_u b) U). intros n Hn qs q F Hq.
  destruct (total_fuel_ok (graph_u b) U) as (Hf1 & Hf2).
  assert (Hf : forall x, In x U -> fuel_for (graph_u b) x <= n) by (intros w Hw; specialize (Hf1 w Hw); lia).
  assert (Hi : env_inv E N (graph_u b) (fresh b)) by (split; [assumption|reflexivity]).
  destruct (ask_all_ok U E N _ n Hf qs (fresh b) Hi F) as (l & st' & E1 & Hi' & _). rewrite E1. cbn [snd].
  destruct (ask_ok U E N _ n Hf st' q Hi' Hq) as (a1 & s1 & -> & _ & R1 & _). destruct (ask_ok U E N _ n Hf (fresh b) q Hi Hq) as (a2 & s2 & -> & _ & R2 & _). cbn [fst].
  exact (right_answer_fun _ _ _ _ R1 R2).
Qed.
(** questions of one kind leave the logs of the other objects alone *)
Theorem C76_separate_logs : forall n st q, let st' := snd (ask n st q) in
  match q with AskTest _ _ _ => e_h st' = e_h st /\ e_est st' = e_est st | AskDsep _ _ _ => e_ci st' = e_ci st /\ e_est st' = e_est st
  | AskEst _ _ _ => e_ci st' = e_ci st /\ e_h st' = e_h st end.
Proof.
  intros n st [X Y Z|X Y Z|X Y Z]; cbv zeta; unfold ask.
  - unfold dsep_ci. destruct (conditionally_independent X Y Z (e_bn st) n) as [[r b]|e]; split; reflexivity.
  - unfold dsep_heuristic. destruct (conditionally_independent X Y Z (e_bn st) n) as [[r b]|e]; split; reflexivity.
  - assert (H : forall b, let st' := snd (estimate n st b X Y Z) in e_ci st' = e_ci st /\ e_h st' = e_h st).
    { intros b. cbv zeta. unfold estimate. destruct (find_all_undirected_paths X Y b n) as [[ps b']|e]; [|split; reflexivity]. destruct (shortest_path ps); split; reflexivity. }
    unfold bn_correlation. destruct Z as [|z Z]; [specialize (H (e_bn st)); destruct (estimate n st (e_bn st) X Y []); exact H|].
    destruct (conditionally_independent X Y (z :: Z) (e_bn st) n) as [[[|] b]|e]; [split; reflexivity| |split; reflexivity]. specialize (H b). destruct (estimate n st b X Y (z :: Z)); exact H.
Qed.
(** end(): the test and the estimator save their logs; without a save path nothing is written *)
Theorem C76_end : forall st, end_test true st = (Ok tt, TestResults (e_ci st)) /\ end_est true st = (Ok tt, Estimates (e_est st)) /\
  end_test false st = (Ok tt, AsBefore) /\ end_est false st = (Ok tt, AsBefore) /\ end_dsep false st = (Ok tt, AsBefore).
Proof. intros st. repeat split. Qed.
(** The d-separation heuristic with a save path always fails at the end, and leaves an empty file *)
Theorem C76_dsep_heuristic_saves_nothing_refuted : forall st, end_dsep true st = (Err AttributeError, Emptied).
Proof. reflexivity. Qed.

(** the network 0 -> 2 <- 1, 2 -> 3: questions of all kinds *)
Example C76_nonvacuous : network_object four (edge_of gY) (new_bn four gY) /\
  let (l, st) := ask_all 30 (fresh (new_bn four gY)) [AskEst 0 3 []; AskTest 0 1 [2]; AskDsep 0 3 [2]; AskEst 0 3 [2]; AskEst 0 1 []; AskTest 0 3 []] in
  map (fun a => match a with Verdict (Ok v) => Some (if v then 1%Q else 0%Q) | Number (Ok v) => Some (Qred v) | _ => None end) l =
    [Some (1 # 3)%Q; Some 0%Q; Some 0%Q; Some 0%Q; Some (1 # 3)%Q; Some 0%Q] /\ length (e_ci st) = 2 /\ length (e_h st) = 1 /\ length (e_est st) = 2.
Proof.
  split; [right; exists gY, four; split; [exact gY_dict|]; split; [exact gY_order|]; repeat split; auto|]. vm_compute. repeat split.
Qed.
