(** C69: a finalised network object asked and edited over time.  Statements, with concrete objects.
    The answers are compared with those of BN_Model's functions without caches, which C19-C21
    characterise in terms of the conditional probability tables. *)
From Coq Require Import Reals Lra.
From Verif Require Import Base Key_Model PMF_Model Graph_Model BN_Model BN_Order_Proofs BN_Final_Proofs BN_Sum_Proofs BNObj_Model BNObj_Proofs.
Open Scope nat_scope.

(** ** Vocabulary *)
(** requests that change nothing: no assignment to a table, no remove_zeros on a PMF handed out *)
Definition question (a : op) : Prop := match a with Edit _ _ _ => False | Zeros _ => False | _ => True end.
(** The answer [x] to [a], seen when the object is [o], is what a network [b] without any cache would
    answer.  For a PMF: what the PMF object handed out contains. *)
Definition plain_answer (iterate : list Z -> list Z) (fuel : nat) (b : bn) (o : obj) (a : op) (x : answer) : Prop :=
  match a, x with
  | Pov v value k, Number y => y = (n <- get_node (variable_nodes b) v ;; probability_of_value n value k)
  | Joint f, Table y => create_joint_pmf fuel b (form_flag f) = (r <- y ;; Ok (content o r))
  | Subnetwork ids, Network y => y = get_subnetwork fuel b ids
  | Partial ids, Table y => create_partial_joint_pmf iterate fuel b ids = (r <- y ;; Ok (content o r))
  | Sample ai rolls, Drawn y => y = bn_sample b ai rolls
  | _, _ => False
  end.
Definition is_sample (a : op) : Prop := match a with Sample _ _ => True | _ => False end.
(** the network after assignments to tables *)
Definition edited (es : list (nat * key * list R)) (b : bn) : bn :=
  fold_left (fun b e => with_nodes b (edit_nodes (fst (fst e)) (snd (fst e)) (snd e) (variable_nodes b))) es b.
Definition as_ops (es : list (nat * key * list R)) : list op := map (fun e => Edit (fst (fst e)) (snd (fst e)) (snd e)) es.
(** the names of its variables are distinct (variable_nodes is a dict) *)
Definition distinct_names (b : bn) : Prop := NoDup (map nname (variable_nodes b)).

(** ** Questions only *)
Lemma points_len o r P : points o r P -> r < length (heap o).
Proof. intros H. apply nth_error_Some. unfold points in H. congruence. Qed.

Lemma quiet_step iterate fuel b o a : distinct_names b -> quiet iterate fuel b o -> question a ->
  quiet iterate fuel b (snd (step iterate fuel o a)) /\ grows b o (snd (step iterate fuel o a)) /\
  ((is_sample a -> frozen o = variable_nodes b) ->
   forall o', grows b (snd (step iterate fuel o a)) o' -> plain_answer iterate fuel b o' a (fst (step iterate fuel o a))).
Proof.
  intros HN Q Ha. destruct a; cbn [step]; try destruct Ha.
  - pose proof (quiet_probability iterate fuel b o v value k Q) as H. destruct (ask_probability o v value k) as [y o']. cbn. tauto.
  - pose proof (quiet_joint iterate fuel b o f Q) as H. destruct (ask_joint fuel o f) as [[r|e] o1]; cbn [fst snd plain_answer bind].
    + destruct H as (H1 & H2 & P & H3 & H4). split; [exact H1|]. split; [exact H2|]. intros _ o' G. rewrite H3. rewrite (points_content o' r P (points_grow _ _ _ _ _ G H4)). reflexivity.
    + destruct H as (H1 & H2 & H3). auto.
  - pose proof (quiet_subnetwork iterate fuel b HN o ids Q) as H. destruct (ask_subnetwork fuel o ids) as [[s|e] o1]; cbn [fst snd plain_answer bind].
    + destruct H as (H1 & H2 & H3 & H4). split; [exact H1|]. split; [exact H2|]. intros _ o' _. rewrite H3. f_equal. unfold sub_now.
      rewrite (q_net _ _ _ _ H1), (sub_overlay _ _ _ _ H3). apply with_nodes_id.
    + destruct H as (H1 & H2 & H3). auto.
  - pose proof (quiet_partial iterate fuel b HN o ids Q) as H. destruct (ask_partial iterate fuel o ids) as [[r|e] o1]; cbn [fst snd plain_answer bind].
    + destruct H as (H1 & H2 & P & H3 & H4). split; [exact H1|]. split; [exact H2|]. intros _ o' G. rewrite H3. rewrite (points_content o' r P (points_grow _ _ _ _ _ G H4)). reflexivity.
    + destruct H as (H1 & H2 & H3). auto.
  - cbn [fst snd plain_answer]. split; [exact Q|]. split; [apply grows_refl|]. intros HF o' _. rewrite (HF Logic.I), (q_net _ _ _ _ Q), with_nodes_id. reflexivity.
Qed.
Lemma F2_imp {A B} (P Q : A -> B -> Prop) l m : (forall a b, P a b -> Q a b) -> Forall2 P l m -> Forall2 Q l m.
Proof. intros H. induction 1; constructor; auto. Qed.
Lemma quiet_run iterate fuel b : distinct_names b -> forall ops o, quiet iterate fuel b o -> (forall a, In a ops -> question a) ->
  quiet iterate fuel b (snd (run iterate fuel o ops)) /\ grows b o (snd (run iterate fuel o ops)) /\
  forall o', grows b (snd (run iterate fuel o ops)) o' ->
    Forall2 (fun a x => (is_sample a -> frozen o = variable_nodes b) -> plain_answer iterate fuel b o' a x) ops (fst (run iterate fuel o ops)).
Proof.
  intros HN. induction ops as [|a ops IH]; intros o Q Hq; [cbn; split; [exact Q | split; [apply grows_refl | constructor]]|].
  rewrite run_cons. cbn [fst snd]. destruct (quiet_step iterate fuel b o a HN Q (Hq a (or_introl eq_refl))) as (Q1 & G1 & A1).
  destruct (IH _ Q1 (fun a' H => Hq a' (or_intror H))) as (Q2 & G2 & A2). split; [exact Q2|]. split; [eapply grows_trans; eassumption|].
  intros o' G. constructor.
  - intros HF. apply A1; [exact HF | eapply grows_trans; eassumption].
  - specialize (A2 o' G). revert A2. apply F2_imp. intros a' x HX HF. apply HX. intros S. apply (proj2 G1). exact (HF S).
Qed.
Lemma quiet_new iterate fuel b fz : quiet iterate fuel b {| net := b; frozen := fz; pov_memo := []; joints := []; subs := []; partials := []; heap := [] |}.
Proof. constructor; cbn; try discriminate; try reflexivity. Qed.

(** As long as nobody assigns to a table or removes zeros from a PMF that was handed out, the caches
    cannot be noticed: every answer to every question, in any order and however often repeated, is the
    one of a network without caches. *)
Theorem C69_caches_are_invisible : forall iterate fuel b, distinct_names b ->
  forall ops, (forall a, In a ops -> question a) ->
  forall xs o, run iterate fuel (new_obj b) ops = (xs, o) -> Forall2 (plain_answer iterate fuel b o) ops xs.
Proof.
  intros iterate fuel b HN ops Hq xs o H.
  destruct (quiet_run iterate fuel b HN ops (new_obj b) (quiet_new iterate fuel b _) Hq) as (_ & _ & A). rewrite H in A.
  specialize (A o (grows_refl b o)). cbn [fst] in A. revert A. apply F2_imp. intros a x HX. apply HX. reflexivity.
Qed.
Print Assumptions C69_caches_are_invisible.

(** ** Assignments to the tables *)
Lemma run_app iterate fuel : forall l1 l2 o, run iterate fuel o (l1 ++ l2) =
  (fst (run iterate fuel o l1) ++ fst (run iterate fuel (snd (run iterate fuel o l1)) l2), snd (run iterate fuel (snd (run iterate fuel o l1)) l2)).
Proof.
  induction l1 as [|a l1 IH]; intros l2 o; [cbn; destruct (run iterate fuel o l2); reflexivity|].
  rewrite <- app_comm_cons, !run_cons, IH. reflexivity.
Qed.
Lemma edit_absent v k row : forall ns, find_node ns v = None -> edit_nodes v k row ns = ns.
Proof.
  intros ns H. apply find_node_unknown in H. unfold edit_nodes. rewrite <- (map_id ns) at 2. apply map_ext_in. intros n Hn.
  destruct (nname n =? v) eqn:E; [|reflexivity]. apply Nat.eqb_eq in E. destruct H. rewrite <- E. apply in_map. exact Hn.
Qed.
Lemma edits_run iterate fuel : forall es b fz, exists xs,
  run iterate fuel {| net := b; frozen := fz; pov_memo := []; joints := []; subs := []; partials := []; heap := [] |} (as_ops es) =
  (xs, {| net := edited es b; frozen := fz; pov_memo := []; joints := []; subs := []; partials := []; heap := [] |}) /\ length xs = length es.
Proof.
  induction es as [|[[v k] row] es IH]; intros b fz; [exists []; split; reflexivity|].
  cbn [as_ops map]. rewrite run_cons. cbn [fst snd step net]. fold (as_ops es). destruct (find_node (variable_nodes b) v) eqn:E.
  - destruct (IH (with_nodes b (edit_nodes v k row (variable_nodes b))) fz) as (xs & Hx & HL). cbn [fst snd frozen pov_memo joints subs partials heap].
    exists (Done (Ok tt) :: xs). split; [|cbn; auto]. unfold edited in Hx |- *. cbn [fold_left fst snd]. rewrite Hx. reflexivity.
  - destruct (IH b fz) as (xs & Hx & HL). exists (Done (Err KeyError) :: xs). split; [|cbn; auto]. cbn [fst snd]. rewrite Hx. cbn [fst snd]. unfold edited. cbn [fold_left fst snd].
    rewrite (edit_absent v k row _ E), with_nodes_id. reflexivity.
Qed.
Lemma edited_structure es : forall b, same_structure b (edited es b).
Proof.
  induction es as [|e es IH]; intros b; [apply same_structure_refl|]. cbn [edited fold_left]. eapply same_structure_trans; [|apply IH].
  eexists. split; [|reflexivity]. apply edit_keeps.
Qed.
Lemma edited_names es b : map nname (variable_nodes (edited es b)) = map nname (variable_nodes b).
Proof. apply structure_names. apply edited_structure. Qed.

(** Assigned before the first question, new numbers are the ones every later question about
    probabilities is answered with.  (Sampling: see the next theorems.) *)
Theorem C69_edits_before_the_first_question : forall iterate fuel b, distinct_names b ->
  forall es ops, (forall a, In a ops -> question a) ->
  forall xs o, run iterate fuel (new_obj b) (as_ops es ++ ops) = (xs, o) ->
    Forall2 (fun a x => ~ is_sample a -> plain_answer iterate fuel (edited es b) o a x) ops (skipn (length es) xs).
Proof.
  intros iterate fuel b HN es ops Hq xs o H. rewrite run_app in H. destruct (edits_run iterate fuel es b (variable_nodes b)) as (ys & Hy & HL).
  unfold new_obj in H. rewrite Hy in H. cbn [fst snd] in H. set (o1 := {| net := edited es b |}) in H.
  assert (HN' : distinct_names (edited es b)) by (unfold distinct_names; rewrite edited_names; exact HN).
  destruct (quiet_run iterate fuel (edited es b) HN' ops o1 (quiet_new _ _ _ _) Hq) as (_ & _ & A).
  injection H as H1 H2. subst xs. rewrite <- HL, skipn_app, skipn_all, Nat.sub_diag. cbn [skipn app]. rewrite H2 in A.
  specialize (A o (grows_refl _ _)). revert A. apply F2_imp. intros a x HX NS. apply HX. intros S. destruct (NS S).
Qed.

(** Sampling does not see assignments: whatever is asked or assigned, it uses the tables as they were
    when the network was finalised - provided no subnetwork is made. *)
Theorem C69_sampling_ignores_edits : forall iterate fuel b ops, (forall ids, ~ In (Subnetwork ids) ops /\ ~ In (Partial ids) ops) ->
  forall ai rolls, fst (step iterate fuel (snd (run iterate fuel (new_obj b) ops)) (Sample ai rolls)) = Drawn (bn_sample b ai rolls).
Proof.
  intros iterate fuel b ops H ai rolls. cbn [step fst]. rewrite (frozen_run iterate fuel ops _ H). cbn [frozen new_obj].
  destruct (run_keeps iterate fuel ops (new_obj b)) as (_ & _ & _ & (g & _ & E) & _). rewrite E. cbn [net new_obj].
  assert (W : forall ns ns', with_nodes (with_nodes b ns) ns' = with_nodes b ns') by reflexivity. rewrite W, with_nodes_id. reflexivity.
Qed.
Print Assumptions C69_sampling_ignores_edits.

(** Making a subnetwork finalises the distributions again, which the subnetwork shares with the network:
    from then on the network samples the variables of the subnetwork - the requested ones and their
    ancestors - with the assigned numbers, and all other variables with the old ones. *)
Lemma refrozen_all all : forall ns ys, mapM (index_conditioning all) ns = Ok ys -> refrozen all ns = map nname ns.
Proof.
  induction ns as [|n ns IH]; intros ys H; [reflexivity|]. cbn [mapM] in H. apply bind_ok in H as (y & H1 & H). apply bind_ok in H as (ys' & H2 & _).
  cbn [refrozen map]. rewrite H1, (IH _ H2). reflexivity.
Qed.
Lemma assign_IDs_names : forall l b b', foldM assign_ID l b = Ok b' -> map nname (variable_nodes b') = map nname (variable_nodes b).
Proof.
  induction l as [|iv l IH]; intros b b' H; cbn [foldM] in H; [inversion H; reflexivity|]. apply bind_ok in H as (b1 & H1 & H). rewrite (IH _ _ H).
  unfold assign_ID in H1. apply bind_ok in H1 as (n0 & _ & H1). inversion H1. cbn. rewrite map_map. apply map_ext. intros n. destruct (nname n =? snd iv); reflexivity.
Qed.
Lemma finalize_names fuel ns b : finalize fuel (new_bn ns) = Ok b -> map nname (variable_nodes b) = map nname ns /\ refrozen ns ns = map nname ns.
Proof.
  unfold finalize. intros H. apply bind_ok in H as (ys & HY & H). apply bind_ok in H as (ord & _ & H). apply bind_ok in H as (? & _ & H).
  apply bind_ok in H as (b' & Hb' & H). inversion H; subst b. cbn [variable_nodes]. rewrite (assign_IDs_names _ _ _ Hb'). cbn. split; [reflexivity | exact (refrozen_all _ _ _ HY)].
Qed.
(** the table of a variable *)
Definition table_of (b : bn) (v : nat) : list (key * list R) := match find_node (variable_nodes b) v with Some n => nprobs n | None => [] end.
Theorem C69_subnetwork_refreshes_sampling : forall iterate fuel b es ids ys s o, distinct_names b ->
  run iterate fuel (new_obj b) (as_ops es ++ [Subnetwork ids]) = (ys ++ [Network (Ok s)], o) ->
  forall ai rolls, fst (step iterate fuel o (Sample ai rolls)) =
    Drawn (bn_sample (with_nodes b (map (fun n => if mem (nname n) (map nname (variable_nodes s)) then with_probs n (table_of (edited es b) (nname n)) else n)
                                        (variable_nodes b))) ai rolls).
Proof.
  intros iterate fuel b es ids ys s o HN H ai rolls. rewrite run_app in H. destruct (edits_run iterate fuel es b (variable_nodes b)) as (zs & Hz & HL).
  unfold new_obj in H. rewrite Hz in H. cbn [fst snd] in H. rewrite run_cons in H. cbn [fst snd run] in H. injection H as H1 H2.
  apply app_inj_tail in H1 as [_ H1]. subst o. cbn [step] in H1 |- *. unfold ask_subnetwork in H1 |- *. cbn [subs assoc net frozen pov_memo joints partials heap] in H1 |- *.
  destruct (subnetwork_nodes fuel (edited es b) ids) as [ns|e]; [|discriminate]. destruct (finalize fuel (new_bn ns)) as [sb|e] eqn:EF; [|discriminate].
  cbn [fst snd bind frozen net] in H1 |- *. injection H1 as H1. destruct (finalize_names _ _ _ EF) as [F1 F2].
  assert (NS : map nname (variable_nodes s) = map nname ns).
  { rewrite <- H1. unfold sub_now. cbn [variable_nodes with_nodes sub_net]. unfold overlay. rewrite map_map. rewrite <- F1. apply map_ext. intros n. destruct (find_node _ (nname n)); reflexivity. }
  destruct (edited_structure es b) as (g & Hg & E). rewrite E at 1.
  assert (W : forall ns ns', with_nodes (with_nodes b ns) ns' = with_nodes b ns') by reflexivity. rewrite W. do 3 f_equal.
  unfold refreeze. apply map_ext_in. intros n Hn. rewrite F2, NS. destruct (mem (nname n) (map nname ns)); [|reflexivity].
  unfold table_of. destruct (find_node (variable_nodes (edited es b)) (nname n)) eqn:EN; [reflexivity|].
  apply find_node_unknown in EN. rewrite edited_names in EN. destruct EN. apply in_map. exact Hn.
Qed.
Print Assumptions C69_subnetwork_refreshes_sampling.

(** ** The PMF objects handed out *)
(** an object that came about by finalising a network and then any requests whatsoever *)
Definition reachable (iterate : list Z -> list Z) (fuel : nat) (b : bn) (o : obj) : Prop := exists ops, o = snd (run iterate fuel (new_obj b) ops).
Record valid (o : obj) : Prop := {
  v_joint : forall f r, In (f, r) (joints o) -> r < length (heap o);
  v_nodup : NoDup (map snd (joints o));
  v_partial : forall i r, In (i, r) (partials o) -> r < length (heap o);
  v_sub : forall i s r, In (i, s) (subs o) -> sub_joint s = Some r -> r < length (heap o) }.
Lemma assoc_In {K V} (eqb : K -> K -> bool) (ok : forall a b, eqb a b = true <-> a = b) k (v : V) d : assoc eqb k d = Some v -> In (k, v) d.
Proof. induction d as [|[k' v'] d IH]; cbn; [discriminate|]. destruct (eqb k k') eqn:E; [apply ok in E; intros H; inversion H; subst; auto | auto]. Qed.
Lemma In_assoc_set {K V} (eqb : K -> K -> bool) (ok : forall a b, eqb a b = true <-> a = b) k (v : V) k' v' d : In (k', v') (assoc_set eqb k v d) -> (k' = k /\ v' = v) \/ In (k', v') d.
Proof.
  induction d as [|[k1 v1] d IH]; cbn; [intros [H | []]; inversion H; auto|]. destruct (eqb k k1) eqn:E; cbn.
  - apply ok in E; subst k1. intros [H | H]; [inversion H; auto | auto].
  - intros [H | H]; [auto | destruct (IH H); auto].
Qed.
Lemma valid_subnetwork fuel o ids : valid o -> valid (snd (ask_subnetwork fuel o ids)) /\ heap (snd (ask_subnetwork fuel o ids)) = heap o /\
  match fst (ask_subnetwork fuel o ids) with Ok s => forall r, sub_joint s = Some r -> r < length (heap o) | Err _ => True end.
Proof.
  intros V. unfold ask_subnetwork. destruct (assoc ids_eqb ids (subs o)) as [s|] eqn:E.
  - split; [exact V|]. split; [reflexivity|]. intros r Hr. exact (v_sub o V ids s r (assoc_In _ ids_eqb_ok _ _ _ E) Hr).
  - destruct (subnetwork_nodes fuel (net o) ids); [|cbn; auto]. destruct (finalize fuel (new_bn a)) as [sb|e]; cbn.
    + split; [|split; [reflexivity | discriminate]]. destruct V as [V1 V2 V3 V4]. constructor; cbn; auto.
      intros i s r H Hr. apply (In_assoc_set _ ids_eqb_ok) in H as [[_ ->] | H]; [discriminate Hr | exact (V4 i s r H Hr)].
    + split; [|split; [reflexivity | exact Logic.I]]. destruct V as [V1 V2 V3 V4]. constructor; auto.
Qed.
Lemma valid_sub_joint fuel o ids s : valid o -> (forall r, sub_joint s = Some r -> r < length (heap o)) -> valid (snd (ask_sub_joint fuel o ids s)) /\
  match fst (ask_sub_joint fuel o ids s) with Ok r => r < length (heap (snd (ask_sub_joint fuel o ids s))) | Err _ => True end.
Proof.
  intros V Hs. unfold ask_sub_joint. destruct (sub_joint s) as [r|]; [split; [exact V | apply Hs; reflexivity]|].
  destruct (cached_joint_pmf fuel (sub_now o s) true (sub_memo s)) as [[P|e] m]; cbn.
  - rewrite app_length. split; [|cbn; lia]. destruct V as [V1 V2 V3 V4]. constructor; cbn; rewrite ?app_length; cbn; auto.
    + intros f r H. apply V1 in H. lia.
    + intros f r H. apply V3 in H. lia.
    + intros i s' r H Hr. apply (In_assoc_set _ ids_eqb_ok) in H as [[_ ->] | H]; [cbn in Hr; inversion Hr; lia | apply (V4 i s' r H) in Hr; lia].
  - split; [|exact Logic.I]. destruct V as [V1 V2 V3 V4]. constructor; cbn; auto.
    intros i s' r H Hr. apply (In_assoc_set _ ids_eqb_ok) in H as [[_ ->] | H]; [discriminate Hr | exact (V4 i s' r H Hr)].
Qed.
Lemma valid_partial iterate fuel o ids : valid o -> valid (snd (ask_partial iterate fuel o ids)).
Proof.
  intros V. unfold ask_partial. destruct (assoc ids_eqb ids (partials o)); [exact V|]. destruct (finalized (net o)); [|exact V].
  pose proof (valid_subnetwork fuel o ids V) as (V1 & E1 & H1). destruct (ask_subnetwork fuel o ids) as [[s|e] o1]; cbn [fst snd] in *; [|exact V1].
  rewrite <- E1 in H1. pose proof (valid_sub_joint fuel o1 ids s V1 H1) as (V2 & H2). destruct (ask_sub_joint fuel o1 ids s) as [[r|e] o2]; cbn [fst snd] in *; [|exact V2].
  destruct (iterate _) as [|z over].
  - destruct V2 as [A1 A2 A3 A4]. constructor; cbn; auto. intros i x H. apply in_app_iff in H as [H | [H | []]]; [exact (A3 i x H) | inversion H; subst; exact H2].
  - destruct (foldM sum_over (z :: over) (content o2 r)); [|exact V2]. destruct V2 as [A1 A2 A3 A4]. constructor; cbn; rewrite ?app_length; cbn; auto.
    + intros f x H. apply A1 in H. lia.
    + intros i x H. apply in_app_iff in H as [H | [H | []]]; [apply A3 in H; lia | inversion H; subst; lia].
    + intros i s' x H Hx. apply (A4 i s' x H) in Hx. lia.
Qed.
Lemma valid_step iterate fuel o a : valid o -> valid (snd (step iterate fuel o a)).
Proof.
  intros V. destruct a; cbn [step].
  - unfold ask_probability. destruct (get_node (variable_nodes (net o)) v); [|exact V]. destruct (cached_probability a value k (pov_memo o)). destruct V; constructor; auto.
  - unfold ask_joint. destruct (assoc form_eqb f (joints o)); [exact V|]. destruct (cached_joint_pmf fuel (net o) (form_flag f) (pov_memo o)) as [[P|e] m].
    + destruct V as [A1 A2 A3 A4]. constructor; cbn; rewrite ?app_length; cbn; auto.
      * intros g x H. apply in_app_iff in H as [H | [H | []]]; [apply A1 in H; lia | inversion H; subst; lia].
      * rewrite map_app. cbn. apply Permutation_NoDup with (length (heap o) :: map snd (joints o)); [rewrite Permutation_app_comm; reflexivity|]. constructor; [|exact A2].
        intros H. apply in_map_iff in H as ([g x] & E & H). cbn in E. subst x. apply A1 in H. lia.
      * intros i x H. apply A3 in H. lia.
      * intros i s' x H Hx. apply (A4 i s' x H) in Hx. lia.
    + destruct V; constructor; auto.
  - pose proof (valid_subnetwork fuel o ids V) as (V1 & _). destruct (ask_subnetwork fuel o ids). exact V1.
  - pose proof (valid_partial iterate fuel o ids V) as V1. destruct (ask_partial iterate fuel o ids). exact V1.
  - exact V.
  - destruct (find_node (variable_nodes (net o)) v); [|exact V]. destruct V; constructor; auto.
  - destruct V as [A1 A2 A3 A4]. constructor; cbn; rewrite ?set_nth_length; auto.
Qed.
Lemma valid_run iterate fuel : forall ops o, valid o -> valid (snd (run iterate fuel o ops)).
Proof. induction ops as [|a ops IH]; intros o V; [exact V|]. rewrite run_cons. apply IH, valid_step, V. Qed.
Lemma valid_reachable iterate fuel b o : reachable iterate fuel b o -> valid o.
Proof. intros [ops ->]. apply valid_run. constructor; cbn; try tauto. constructor. Qed.

(** Asked again in the same way, the network hands out the same PMF object, whatever happened in between;
    and what is in it has not changed unless the caller changed it. *)
Theorem C69_same_question_same_object : forall iterate fuel b o, reachable iterate fuel b o ->
  forall a, (exists f, a = Joint f) \/ (exists ids, a = Partial ids) ->
  forall r o1, step iterate fuel o a = (Table (Ok r), o1) ->
  forall ops, fst (step iterate fuel (snd (run iterate fuel o1 ops)) a) = Table (Ok r) /\
    (~ In (Zeros r) ops -> content (snd (run iterate fuel o1 ops)) r = content o1 r).
Proof.
  intros iterate fuel b o HR a Ha r o1 H ops. pose proof (valid_step iterate fuel o a (valid_reachable _ _ _ _ HR)) as V. rewrite H in V. cbn [snd] in V.
  destruct (run_keeps iterate fuel ops o1) as (K1 & K2 & _). destruct Ha as [[f ->] | [ids ->]]; cbn [step] in H.
  - pose proof (joint_keeps fuel o f) as HJ. destruct (ask_joint fuel o f) as [[r'|e] o']; [|discriminate]. inversion H; subst r' o'. destruct HJ as (_ & _ & _ & HJ).
    split; [cbn [step]; unfold ask_joint; rewrite (K1 f r HJ); reflexivity|]. intros HZ. apply content_run; [exact HZ|]. exact (v_joint o1 V f r (assoc_In _ form_eqb_ok _ _ _ HJ)).
  - pose proof (partial_keeps iterate fuel o ids) as HJ. destruct (ask_partial iterate fuel o ids) as [[r'|e] o']; [|discriminate]. inversion H; subst r' o'. destruct HJ as (_ & _ & _ & _ & _ & HJ).
    split; [cbn [step]; unfold ask_partial; rewrite (K2 ids r HJ); reflexivity|]. intros HZ. apply content_run; [exact HZ|]. exact (v_partial o1 V ids r (assoc_In _ ids_eqb_ok _ _ _ HJ)).
Qed.
(** Different ways of writing the same call of create_joint_pmf give different objects. *)
Theorem C69_forms_are_separate : forall iterate fuel b o, reachable iterate fuel b o ->
  forall f g r o1 ops s o2, f <> g -> step iterate fuel o (Joint f) = (Table (Ok r), o1) ->
  step iterate fuel (snd (run iterate fuel o1 ops)) (Joint g) = (Table (Ok s), o2) -> r <> s.
Proof.
  intros iterate fuel b o [ops0 ->] f g r o1 ops s o2 Hfg H1 H2 E. subst s.
  assert (V : valid o2).
  { pose proof (valid_step iterate fuel (snd (run iterate fuel o1 ops)) (Joint g)) as HV. rewrite H2 in HV. apply HV, valid_run.
    pose proof (valid_step iterate fuel (snd (run iterate fuel (new_obj b) ops0)) (Joint f)) as HV1. rewrite H1 in HV1. apply HV1. apply (valid_reachable iterate fuel b). exists ops0; reflexivity. }
  cbn [step] in H1, H2. pose proof (joint_keeps fuel (snd (run iterate fuel (new_obj b) ops0)) f) as J1. destruct (ask_joint fuel (snd (run iterate fuel (new_obj b) ops0)) f) as [[r1|e] oa]; [|discriminate].
  inversion H1; subst r1 oa. destruct J1 as (_ & _ & _ & J1).
  pose proof (joint_keeps fuel (snd (run iterate fuel o1 ops)) g) as J2. destruct (ask_joint fuel (snd (run iterate fuel o1 ops)) g) as [[r2|e] ob]; [|discriminate].
  inversion H2; subst r2 ob. destruct J2 as ((K1 & _) & _ & _ & J2). destruct (run_keeps iterate fuel ops o1) as (K0 & _).
  pose proof (K1 f r (K0 f r J1)) as J3. apply (assoc_In _ form_eqb_ok) in J2, J3. pose proof (v_nodup o2 V) as ND.
  assert (U : forall (l : list (form * nat)), NoDup (map snd l) -> In (f, r) l -> In (g, r) l -> f = g).
  { clear. induction l as [|[h x] l IH]; cbn; intros ND H1 H2; [destruct H1|]. inversion ND as [|? ? HN ND']; subst.
    destruct H1 as [H1 | H1], H2 as [H2 | H2]; [congruence | inversion H1; subst; destruct HN; apply in_map_iff; exists (g, r); auto | inversion H2; subst; destruct HN; apply in_map_iff; exists (f, r); auto | auto]. }
  exact (Hfg (U _ ND J3 J2)).
Qed.
(** Removing the zeros from the PMF received removes them for everybody who asks in the same way later. *)
Theorem C69_remove_zeros_is_seen_by_later_callers : forall iterate fuel b o, reachable iterate fuel b o ->
  forall f r o1, step iterate fuel o (Joint f) = (Table (Ok r), o1) ->
  exists o2, step iterate fuel (snd (step iterate fuel o1 (Zeros r))) (Joint f) = (Table (Ok r), o2) /\ content o2 r = remove_zeros (content o1 r).
Proof.
  intros iterate fuel b o HR f r o1 H. pose proof (valid_step iterate fuel o (Joint f) (valid_reachable _ _ _ _ HR)) as V. rewrite H in V. cbn [snd] in V.
  cbn [step] in H. pose proof (joint_keeps fuel o f) as HJ. destruct (ask_joint fuel o f) as [[r'|e] o']; [|discriminate]. inversion H; subst r' o'. destruct HJ as (_ & _ & _ & HJ).
  cbn [step snd]. unfold ask_joint. cbn [joints]. rewrite HJ. eexists. split; [reflexivity|]. unfold content at 1. cbn [heap]. apply set_nth_same.
  exact (v_joint o1 V f r (assoc_In _ form_eqb_ok _ _ _ HJ)).
Qed.

(** ** After the first joint PMF *)
Lemma quiet_decided iterate fuel b : distinct_names b -> forall ops o, quiet iterate fuel b o -> (forall a, In a ops -> question a) ->
  let D o := joints o <> [] -> exists c m, hits fuel b [] c m /\ memo_sound (variable_nodes b) m /\ extends m (pov_memo o) in
  D o -> D (snd (run iterate fuel o ops)).
Proof.
  intros HN. induction ops as [|a ops IH]; intros o Q Hq D HD; [exact HD|]. rewrite run_cons. cbn [snd].
  destruct (quiet_step iterate fuel b o a HN Q (Hq a (or_introl eq_refl))) as (Q1 & _ & _).
  apply IH; [exact Q1 | intros a' H; apply Hq; right; exact H |]. clear IH. unfold D in HD |- *.
  assert (KEEP : joints (snd (step iterate fuel o a)) = joints o -> joints (snd (step iterate fuel o a)) <> [] -> exists c m, hits fuel b [] c m /\ memo_sound (variable_nodes b) m /\ extends m (pov_memo (snd (step iterate fuel o a)))).
  { intros E NE. rewrite E in NE. destruct (HD NE) as (c & m & H1 & H2 & H3). exists c, m. split; [exact H1|]. split; [exact H2|].
    eapply extends_trans; [exact H3|]. apply (step_keeps iterate fuel o a). }
  destruct a; try (destruct (Hq _ (or_introl eq_refl))).
  - apply KEEP. cbn [step]. pose proof (probability_keeps o v value k) as H. destruct (ask_probability o v value k). apply H.
  - cbn [step] in KEEP |- *. unfold ask_joint in KEEP |- *. destruct (assoc form_eqb f (joints o)) eqn:E; [apply KEEP; reflexivity|].
    unfold cached_joint_pmf in KEEP |- *. rewrite (q_net _ _ _ _ Q) in KEEP |- *. destruct (finalized b); [|apply KEEP; reflexivity].
    pose proof (cached_joint_sound fuel b (form_flag f) [] [] 1%R (pov_memo o) (q_memo _ _ _ _ Q)) as [_ S].
    destruct (cached_joint_values fuel b (form_flag f) [] [] 1%R (pov_memo o)) as [[[vp' c]|e] m] eqn:EJ; [|apply KEEP; reflexivity].
    intros _. exists c, m. split; [exact (joint_hits _ _ _ _ _ _ _ _ _ _ EJ)|]. split; [exact S | apply extends_refl].
  - apply KEEP. cbn [step]. pose proof (subnetwork_keeps fuel o ids) as H. destruct (ask_subnetwork fuel o ids). apply H.
  - apply KEEP. cbn [step]. pose proof (partial_keeps iterate fuel o ids) as H. destruct (ask_partial iterate fuel o ids). apply H.
  - apply KEEP. reflexivity.
Qed.

(** Once a joint PMF has been made, no assignment to a table can change what create_joint_pmf answers,
    not even in a call form that was never used before: it goes on answering for the old tables. *)
Theorem C69_first_joint_decides : forall iterate fuel b, distinct_names b ->
  forall qs, (forall a, In a qs -> question a) ->
  forall f r o1, step iterate fuel (snd (run iterate fuel (new_obj b) qs)) (Joint f) = (Table (Ok r), o1) ->
  forall ops, (forall s, ~ In (Zeros s) ops) ->
  forall g x o2, step iterate fuel (snd (run iterate fuel o1 ops)) (Joint g) = (x, o2) -> plain_answer iterate fuel b o2 (Joint g) x.
Proof.
  intros iterate fuel b HN qs Hq f r o1 H ops HZ g x o2 Hx.
  assert (Hq' : forall a, In a (qs ++ [Joint f]) -> question a) by (intros a Ha; apply in_app_iff in Ha as [Ha | [<- | []]]; [auto | exact Logic.I]).
  destruct (quiet_run iterate fuel b HN (qs ++ [Joint f]) (new_obj b) (quiet_new _ _ _ _) Hq') as (Q & _ & _).
  assert (D := quiet_decided iterate fuel b HN (qs ++ [Joint f]) (new_obj b) (quiet_new _ _ _ _) Hq' (fun E => False_ind _ (E eq_refl))). cbn beta in D.
  assert (EO : snd (run iterate fuel (new_obj b) (qs ++ [Joint f])) = o1).
  { rewrite run_app. cbn [snd]. rewrite run_cons. cbn [run snd]. rewrite H. reflexivity. }
  rewrite EO in Q, D. clear EO.
  assert (NE : joints o1 <> []).
  { cbn [step] in H. pose proof (joint_keeps fuel (snd (run iterate fuel (new_obj b) qs)) f) as J. destruct (ask_joint fuel _ f) as [[r'|e] o']; [|discriminate]. inversion H; subst.
    destruct J as (_ & _ & _ & J). intros E. rewrite E in J. discriminate. }
  destruct (D NE) as (c & m & H1 & H2 & H3). clear D NE H r f Hq' qs Hq.
  (* the invariant from here on *)
  assert (INV : forall ops o, (forall s, ~ In (Zeros s) ops) ->
     same_structure b (net o) /\ extends m (pov_memo o) /\ (forall h k, assoc form_eqb h (joints o) = Some k -> exists P, create_joint_pmf fuel b (form_flag h) = Ok P /\ points o k P) ->
     let o' := snd (run iterate fuel o ops) in
     same_structure b (net o') /\ extends m (pov_memo o') /\ (forall h k, assoc form_eqb h (joints o') = Some k -> exists P, create_joint_pmf fuel b (form_flag h) = Ok P /\ points o' k P)).
  { clear Hx x o2 g Q H3 o1 HZ ops.
    induction ops as [|a ops IH]; intros o HZ (A1 & A2 & A3); [cbn; auto|]. rewrite run_cons. cbn [snd].
    apply IH; [intros s Hs; apply (HZ s); right; exact Hs |]. clear IH.
    destruct (step_keeps iterate fuel o a) as (_ & _ & K3 & K4 & _).
    assert (KC : keeps_content o (snd (step iterate fuel o a))) by (apply step_content; intros s E; apply (HZ s); left; exact E).
    split; [eapply same_structure_trans; eassumption|]. split; [eapply extends_trans; eassumption|].
    assert (PG : forall k P, points o k P -> points (snd (step iterate fuel o a)) k P).
    { intros k P HP. destruct KC as [l E]. unfold points. rewrite E. rewrite nth_error_app1; [exact HP | exact (points_len _ _ _ HP)]. }
    assert (KEEP : joints (snd (step iterate fuel o a)) = joints o -> forall h k, assoc form_eqb h (joints (snd (step iterate fuel o a))) = Some k -> exists P, create_joint_pmf fuel b (form_flag h) = Ok P /\ points (snd (step iterate fuel o a)) k P).
    { intros E h k Hk. rewrite E in Hk. destruct (A3 h k Hk) as (P & P1 & P2). exists P. auto. }
    destruct a.
    - apply KEEP; cbn [step]. pose proof (probability_keeps o v value k) as H. destruct (ask_probability o v value k). apply H.
    - cbn [step] in KEEP, PG |- *. unfold ask_joint in KEEP, PG |- *. destruct (assoc form_eqb f (joints o)) eqn:E; [apply KEEP; reflexivity|].
      unfold cached_joint_pmf in KEEP, PG |- *. destruct (structure_names _ _ A1) as (_ & _ & _ & NF & NI). rewrite NF in KEEP, PG |- *. destruct (finalized b) eqn:FB; [|apply KEEP; reflexivity].
      destruct (H1 (net o) (form_flag f) [] 1%R (pov_memo o) A1 A2) as [HJ _]. rewrite HJ in KEEP, PG |- *.
      destruct (cached_joint_sound fuel b (form_flag f) [] [] 1%R m H2) as [HS _]. rewrite HS in KEEP, PG |- *.
      destruct (joint_values fuel b (form_flag f) [] [] 1%R) as [st|e] eqn:EJ; [|apply KEEP; reflexivity]. cbn [snd] in PG |- *.
      intros h k Hk. cbn [joints] in Hk. rewrite d_app in Hk. destruct (assoc form_eqb h (joints o)) eqn:EH.
      + inversion Hk; subst. destruct (A3 h k EH) as (P & P1 & P2). exists P. auto.
      + cbn [assoc] in Hk. destruct (form_eqb h f) eqn:Ef; [|discriminate]. apply form_eqb_ok in Ef; subst h. inversion Hk; subst k.
        eexists. split; [unfold create_joint_pmf, guarded; rewrite FB, EJ; reflexivity|]. rewrite <- NI. apply points_new. reflexivity.
    - apply KEEP; cbn [step]. pose proof (subnetwork_keeps fuel o ids) as H. destruct (ask_subnetwork fuel o ids). apply H.
    - apply KEEP; cbn [step]. pose proof (partial_keeps iterate fuel o ids) as H. destruct (ask_partial iterate fuel o ids). apply H.
    - apply KEEP; cbn [step]. reflexivity.
    - apply KEEP; cbn [step]. destruct (find_node (variable_nodes (net o)) v); reflexivity.
    - destruct (HZ r). left. reflexivity. }
  assert (SS : same_structure b (net o1)) by (rewrite (q_net _ _ _ _ Q); apply same_structure_refl).
  assert (I1 := INV ops o1 HZ (conj SS (conj H3 (q_joint _ _ _ _ Q)))). cbv zeta in I1.
  set (o3 := snd (run iterate fuel o1 ops)) in *. clearbody o3. destruct I1 as (B1 & B2 & B3).
  cbn [step] in Hx. unfold ask_joint in Hx. destruct (assoc form_eqb g (joints o3)) as [k|] eqn:E.
  - inversion Hx; subst. destruct (B3 g k E) as (P & P1 & P2). cbn [plain_answer bind]. rewrite (points_content _ _ _ P2). exact P1.
  - unfold cached_joint_pmf in Hx. destruct (structure_names _ _ B1) as (_ & _ & _ & NF & NI). rewrite NF in Hx. destruct (finalized b) eqn:FB.
    2: { inversion Hx; subst. cbn [plain_answer bind]. unfold create_joint_pmf, guarded. rewrite FB. reflexivity. }
    destruct (H1 (net o3) (form_flag g) [] 1%R (pov_memo o3) B1 B2) as [HJ _]. rewrite HJ in Hx.
    destruct (cached_joint_sound fuel b (form_flag g) [] [] 1%R m H2) as [HS _]. rewrite HS in Hx.
    destruct (joint_values fuel b (form_flag g) [] [] 1%R) as [st|e] eqn:EJ.
    + inversion Hx; subst. cbn [plain_answer bind]. unfold create_joint_pmf, guarded. rewrite FB, EJ. cbn [bind]. f_equal. rewrite <- NI. symmetry. apply points_content, points_new. reflexivity.
    + inversion Hx; subst. cbn [plain_answer bind]. unfold create_joint_pmf, guarded. rewrite FB, EJ. reflexivity.
Qed.
Print Assumptions C69_first_joint_decides.

(** ** Concrete objects *)
(** two independent coins (names 0 and 1, values 10 and 11) that always show 11 *)
Definition coin (v : nat) (p q : R) : node := {| nname := v; nID := None; nvalues := [10; 11]; nparents := []; nprobs := [(None, [p; q])] |}.
Definition finalised (ns : list node) (b : bn) : Prop := forall fuel, length ns <= fuel -> finalize fuel (new_bn ns) = Ok b.
Definition coins_bn : bn := match finalize 2 (new_bn [coin 0 0 1; coin 1 0 1]) with Ok b => b | Err _ => new_bn [] end.
Definition coin_bn : bn := match finalize 1 (new_bn [coin 0 (1/4) (3/4)]) with Ok b => b | Err _ => new_bn [] end.
Example C69_objects : finalize 2 (new_bn [coin 0 0 1; coin 1 0 1]) = Ok coins_bn /\ distinct_names coins_bn /\
  finalize 1 (new_bn [coin 0 (1/4) (3/4)]) = Ok coin_bn /\ distinct_names coin_bn.
Proof. split; [reflexivity|]. split; [repeat constructor; cbn; intuition discriminate|]. split; [reflexivity|]. repeat constructor; cbn; intuition. Qed.
Definition same_order (l : list Z) := l.

(** a history of questions with answers *)
Example C69_questions_nonvacuous : exists o, run same_order 5 (new_obj coin_bn) [Pov 0 11 None; Joint FDefault; Joint (FPositional true); Joint FDefault; Pov 0 12 None] =
  ([Number (Ok (3/4)%R); Table (Ok 0); Table (Ok 1); Table (Ok 0); Number (Err ValueError)], o) /\
  probabilities (content o 0) = [(tuple_key [0], (1 * (1/4))%R); (tuple_key [1], (1 * (3/4))%R)] /\ probabilities (content o 1) = probabilities (content o 0).
Proof.
  exists (snd (run same_order 5 (new_obj coin_bn) [Pov 0 11 None; Joint FDefault; Joint (FPositional true); Joint FDefault; Pov 0 12 None])).
  split; [vm_compute; reflexivity|]. split; vm_compute; reflexivity.
Qed.

(** Numbers asked for before an assignment stay in the next joint PMF, the others are new: the result is
    a distribution of neither network and does not even sum to one. *)
Theorem C69_joint_after_edit_mixes_old_and_new_refuted : exists P o, run same_order 5 (new_obj coin_bn) [Pov 0 10 None; Edit 0 None [3/4; 1/4]%R; Joint FDefault] =
  ([Number (Ok (1/4)%R); Done (Ok tt); Table (Ok 0)], o) /\ content o 0 = P /\
  probabilities P = [(tuple_key [0], (1 * (1/4))%R); (tuple_key [1], (1 * (1/4))%R)].
Proof. do 2 eexists. split; [reflexivity|]. split; reflexivity. Qed.

Definition coin_edits : list (nat * key * list R) := [(0, None, [1; 0]%R); (1, None, [1; 0]%R)].
Lemma coins_after_partial : exists oA oB b2,
  run same_order 5 (new_obj coins_bn) (as_ops coin_edits) = ([Done (Ok tt); Done (Ok tt)], oA) /\
  (forall ai rolls, fst (step same_order 5 oA (Sample ai rolls)) = Drawn (bn_sample coins_bn ai rolls)) /\
  step same_order 5 oA (Partial [0]) = (Table (Ok 0), oB) /\
  (forall ai rolls, fst (step same_order 5 oB (Sample ai rolls)) = Drawn (bn_sample b2 ai rolls)) /\
  finalize 2 (new_bn [coin 0 1 0; coin 1 0 1]) = Ok b2.
Proof.
  exists (snd (run same_order 5 (new_obj coins_bn) (as_ops coin_edits))).
  exists (snd (step same_order 5 (snd (run same_order 5 (new_obj coins_bn) (as_ops coin_edits))) (Partial [0]))).
  exists (with_nodes (net (snd (step same_order 5 (snd (run same_order 5 (new_obj coins_bn) (as_ops coin_edits))) (Partial [0]))))
                     (frozen (snd (step same_order 5 (snd (run same_order 5 (new_obj coins_bn) (as_ops coin_edits))) (Partial [0]))))).
  split; [vm_compute; reflexivity|].
  split; [intros ai rolls; apply C69_sampling_ignores_edits; intros ids; unfold as_ops, coin_edits; cbn; intuition discriminate|].
  split; [vm_compute; reflexivity|]. split; [|vm_compute; reflexivity].
  intros ai rolls. generalize (snd (step same_order 5 (snd (run same_order 5 (new_obj coins_bn) (as_ops coin_edits))) (Partial [0]))). intros o. reflexivity.
Qed.
(** Asking for the partial joint PMF of one variable changes what the network samples: after an
    assignment to both tables, sampling ignores both; once the PMF of variable 0 has been asked for,
    variable 0 is sampled with the new numbers, variable 1 still with the old ones. *)
Theorem C69_partial_changes_sampling_refuted : exists o,
  run same_order 5 (new_obj coins_bn) [Edit 0 None [1; 0]%R; Edit 1 None [1; 0]%R; Sample false [1/2; 1/2]%R; Partial [0]; Sample false [1/2; 1/2]%R] =
  ([Done (Ok tt); Done (Ok tt); Drawn (Ok ([(0, 11); (1, 11)], [])); Table (Ok 0); Drawn (Ok ([(0, 10); (1, 11)], []))], o).
Proof.
  assert (R1 : sample_roll (1/2) (cumulative [0; 1]%R) = Some 1).
  { cbn. destruct (Rle_dec (1/2) (0 + 0)) as [H|H]; [lra|]. destruct (Rle_dec (1/2) (0 + 0 + 1)) as [H'|H']; [reflexivity | lra]. }
  assert (R2 : sample_roll (1/2) (cumulative [1; 0]%R) = Some 0).
  { cbn. destruct (Rle_dec (1/2) (0 + 1)) as [H|H]; [reflexivity | lra]. }
  assert (S1 : forall p q p' q' i j b, sample_roll (1/2) (cumulative [p; q]) = Some i -> sample_roll (1/2) (cumulative [p'; q']) = Some j -> i < 2 -> j < 2 ->
    finalize 2 (new_bn [coin 0 p q; coin 1 p' q']) = Ok b -> bn_sample b false [1/2; 1/2]%R = Ok ([(0, 10 + i); (1, 10 + j)], [])).
  { intros p q p' q' i j b HI HJ Li Lj HB. vm_compute in HB. inversion HB; subst b; clear HB. unfold bn_sample, guarded. cbn [finalized order_nodes foldM variable_nodes].
    cbn [get_node find_node find nname Nat.eqb of_option bind node_sample existsb nparents]. unfold probdist_sample. cbn [nprobs assoc key_eqb of_option bind].
    rewrite HI. cbn [bind]. destruct i as [|[|i]]; [| |lia]; cbn -[sample_roll cumulative]; unfold probdist_sample; cbn -[sample_roll cumulative]; rewrite HJ; (destruct j as [|[|j]]; [reflexivity | reflexivity | lia]). }
  destruct coins_after_partial as (oA & oB & b2 & HA & HS & HP & HB & F2).
  exists (snd (step same_order 5 oB (Sample false [1/2; 1/2]%R))).
  change [Edit 0 None [1; 0]%R; Edit 1 None [1; 0]%R; Sample false [1/2; 1/2]%R; Partial [0]; Sample false [1/2; 1/2]%R] with (as_ops coin_edits ++ [Sample false [1/2; 1/2]%R; Partial [0]; Sample false [1/2; 1/2]%R]).
  rewrite run_app, HA. cbn [fst snd]. rewrite !run_cons. cbn [fst snd run]. rewrite HS.
  assert (SA : forall ai rolls o, snd (step same_order 5 o (Sample ai rolls)) = o) by reflexivity. rewrite !SA, HP. cbn [fst snd].
  pose proof (HB false [1/2; 1/2]%R) as SB. specialize (SA false [1/2; 1/2]%R oB). destruct (step same_order 5 oB (Sample false [1/2; 1/2]%R)) as [xx oC]. cbn [fst snd] in SB, SA |- *. subst xx oC.
  rewrite (S1 _ _ _ _ 1 1 _ R1 R1 ltac:(lia) ltac:(lia) (proj1 C69_objects)). rewrite (S1 _ _ _ _ 0 1 _ R2 R1 ltac:(lia) ltac:(lia) F2). reflexivity.
Qed.
(** an assignment after the first joint PMF: the other call forms still answer for the old table *)
Example C69_first_joint_nonvacuous : exists o, run same_order 5 (new_obj coin_bn) [Joint FDefault; Edit 0 None [3/4; 1/4]%R; Joint (FKeyword true)] =
  ([Table (Ok 0); Done (Ok tt); Table (Ok 1)], o) /\
  probabilities (content o 0) = [(tuple_key [0], (1 * (1/4))%R); (tuple_key [1], (1 * (3/4))%R)] /\ probabilities (content o 1) = probabilities (content o 0).
Proof.
  set (ops := [Joint FDefault; _; _]). exists (snd (run same_order 5 (new_obj coin_bn) ops)). unfold ops. clear ops.
  split; [vm_compute; reflexivity|]. split; vm_compute; reflexivity.
Qed.
