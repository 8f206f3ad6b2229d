(** C58: what an experiment prints, where it goes, and which streams it closes. *)
From Verif Require Import Base Matrix_Model Logs_Model.
Open Scope nat_scope.

(** ** Specification *)
(** the text of a list of printed lines *)
Definition lines (ss : list text) : text := flat_map (fun s => s ++ [10]) ss.
(** the run is actually started *)
Definition started (r : logged_run) : Prop := lr_skip r = false.
(** nothing in it goes wrong *)
Definition goes_well (r : logged_run) : Prop := lr_init r = Ok tt /\ lr_outcome r = Ok tt /\ lr_save r = Ok tt.
(** what a run of an experiment shows for one entry *)
Definition shown (o : log_options) (skipped : nat -> text) (r : logged_run) : list text :=
  if lr_skip r then (if quiet o then [] else [skipped (lr_ID r)])
  else (if log_stdout o then lr_prints r else []) ++ (if quiet o then [] else [lr_str r]).
Definition transcript (o : log_options) (begins ends : text) (skipped : nat -> text) (l : list logged_run) : list text :=
  (if quiet o then [] else [begins]) ++ flat_map (shown o skipped) l ++ (if quiet o then [] else [ends]).

(** ** Lemmas *)
Lemma lines_app : forall a b, lines (a ++ b) = lines a ++ lines b.
Proof. intros. unfold lines. apply flat_map_app. Qed.
Lemma upd_same : forall A (f : handle -> A) h a, upd f h a h = a.
Proof. intros. unfold upd. rewrite Nat.eqb_refl. reflexivity. Qed.
Lemma upd_other : forall A (f : handle -> A) h a h', h' <> h -> upd f h a h' = f h'.
Proof. intros. unfold upd. destruct (Nat.eqb_spec h' h); [contradiction|reflexivity]. Qed.

Definition all_open (hs : list handle) (st : streams) : Prop := forall h, In h hs -> is_open st h = true.
(** [st'] is [st] after [s] has been written to each of [hs] *)
Definition wrote (hs : list handle) (s : text) (st st' : streams) : Prop :=
  (forall h, is_open st' h = is_open st h) /\
  (forall h, In h hs -> written st' h = written st h ++ s) /\ (forall h, ~ In h hs -> written st' h = written st h).

Lemma wrote_trans : forall hs s1 s2 a b c, wrote hs s1 a b -> wrote hs s2 b c -> wrote hs (s1 ++ s2) a c.
Proof.
  intros hs s1 s2 a b c [O1 [W1 N1]] [O2 [W2 N2]]. split; [|split].
  - intro h. rewrite O2. apply O1.
  - intros h Hh. rewrite W2, W1 by assumption. rewrite app_assoc. reflexivity.
  - intros h Hh. rewrite N2, N1 by assumption. reflexivity.
Qed.
Lemma wrote_open : forall hs s a b l, wrote hs s a b -> all_open l a -> all_open l b.
Proof. intros hs s a b l [O _] H h Hh. rewrite O. apply H, Hh. Qed.

Lemma write_ok : forall hs s st, NoDup hs -> all_open hs st -> exists st', write hs s st = (st', Ok tt) /\ wrote hs s st st'.
Proof.
  induction hs as [|h hs IH]; intros s st ND AO.
  - exists st. split; [reflexivity|]. split; [reflexivity|]. split; [intros h []|reflexivity].
  - inversion ND as [|h0 hs0 Hni ND']; subst. cbn [write]. unfold write_one. rewrite (AO h) by now left.
    set (st1 := {| written := upd (written st) h (written st h ++ s); is_open := is_open st |}).
    destruct (IH s st1 ND') as [st' [E [O [W N]]]]. { intros h' Hh'. apply AO. now right. }
    exists st'. split; [exact E|]. split; [exact O|]. split.
    + intros h' [<- | Hh'].
      * rewrite N by assumption. cbn [st1 written]. apply upd_same.
      * rewrite W by assumption. cbn [st1 written]. rewrite upd_other; [reflexivity|]. intros ->. contradiction.
    + intros h' Hh'. rewrite N by (intro; apply Hh'; now right). cbn [st1 written]. apply upd_other. intros ->. apply Hh'. now left.
Qed.
Lemma print_ok : forall hs s st, NoDup hs -> all_open hs st -> exists st', print hs s st = (st', Ok tt) /\ wrote hs (lines [s]) st st'.
Proof.
  intros hs s st ND AO. destruct (write_ok hs s st ND AO) as [st1 [E1 W1]].
  destruct (write_ok hs [10] st1 ND (wrote_open _ _ _ _ _ W1 AO)) as [st2 [E2 W2]].
  exists st2. unfold print. rewrite E1. split; [exact E2|]. unfold lines. cbn [flat_map]. rewrite app_nil_r. eapply wrote_trans; eassumption.
Qed.
Lemma prints_ok : forall ss hs st, NoDup hs -> all_open hs st -> exists st', prints hs ss st = (st', Ok tt) /\ wrote hs (lines ss) st st'.
Proof.
  induction ss as [|s ss IH]; intros hs st ND AO.
  - exists st. split; [reflexivity|]. split; [reflexivity|]. split; [intros; symmetry; apply app_nil_r|reflexivity].
  - cbn [prints]. destruct (print_ok hs s st ND AO) as [st1 [E1 W1]]. rewrite E1.
    destruct (IH hs st1 ND (wrote_open _ _ _ _ _ W1 AO)) as [st2 [E2 W2]].
    exists st2. split; [exact E2|]. change (s :: ss) with ([s] ++ ss). rewrite lines_app. eapply wrote_trans; eassumption.
Qed.

Lemma flush_ok : forall hs st, all_open hs st -> flush hs st = (st, Ok tt).
Proof.
  induction hs as [|h hs IH]; intros st AO; [reflexivity|]. cbn [flush]. unfold flush_one. rewrite (AO h) by now left.
  apply IH. intros h' Hh'. apply AO. now right.
Qed.
Lemma flush_state : forall hs st, fst (flush hs st) = st.
Proof. induction hs as [|h hs IH]; intro st; [reflexivity|]. cbn [flush flush_one]. destruct (is_open st h); [apply IH|reflexivity]. Qed.
Lemma close_fold : forall hs st, let st' := fold_left (fun st h => if h =? terminal then st else close_one h st) hs st in
  (forall h, written st' h = written st h) /\
  (forall h, In h hs -> h <> terminal -> is_open st' h = false) /\ (forall h, ~ In h hs \/ h = terminal -> is_open st' h = is_open st h).
Proof.
  induction hs as [|h hs IH]; intro st; cbn [fold_left].
  - split; [reflexivity|]. split; [intros h []|reflexivity].
  - set (st1 := if h =? terminal then st else close_one h st). destruct (IH st1) as [W [C O]].
    assert (W1 : forall h', written st1 h' = written st h') by (intro h'; unfold st1; destruct (h =? terminal); reflexivity).
    split; [intro h'; rewrite W; apply W1|]. split.
    + intros h' Hin Ht. destruct (in_dec Nat.eq_dec h' hs) as [Hi|Hi]; [apply C; assumption|].
      rewrite O by now left. destruct Hin as [-> | Hi']; [|contradiction]. unfold st1.
      destruct (Nat.eqb_spec h' terminal); [contradiction|]. cbn [close_one is_open]. apply upd_same.
    + intros h' Hh'. rewrite O by (destruct Hh' as [Hn | ->]; [left; intro; apply Hn; now right | now right]).
      unfold st1. destruct (Nat.eqb_spec h terminal) as [|Hnt]; [reflexivity|]. cbn [close_one is_open]. apply upd_other.
      destruct Hh' as [Hn | ->]; [intros ->; apply Hn; now left | congruence].
Qed.

(** ** One run *)
Lemma destinations_in : forall o stdout id h, In h (destinations o stdout id) <-> (log_stdout o = true /\ h = stdout) \/ (log_file o = true /\ h = log_handle id).
Proof.
  intros o stdout id h. unfold destinations. rewrite in_app_iff. destruct (log_stdout o), (log_file o); cbn [In]; intuition (congruence || auto).
Qed.
Lemma destinations_nodup : forall o stdout id, stdout <> log_handle id -> NoDup (destinations o stdout id).
Proof.
  intros o stdout id H. unfold destinations. destruct (log_stdout o), (log_file o); cbn [app]; repeat constructor; cbn [In]; intuition congruence.
Qed.

(** the state of the streams after a started run whose destinations are all open, whatever happens in
    it: the state [st'] before [print(str(algorithm_run))] *)
Lemma run_algorithm_streams : forall o stdout r st,
  lr_init r = Ok tt -> stdout <> log_handle (lr_ID r) -> (log_stdout o = true -> is_open st stdout = true) ->
  exists st',
    run_algorithm o stdout r st =
      match lr_outcome r with
      | Err e => (st', Err e)
      | Ok _ => match lr_save r with Err e => (st', Err e) | Ok _ => if quiet o then (st', Ok tt) else print [stdout] (lr_str r) st' end
      end /\
    (log_file o = true -> written st' (log_handle (lr_ID r)) = lines (lr_prints r) /\ is_open st' (log_handle (lr_ID r)) = false) /\
    (log_file o = false -> written st' (log_handle (lr_ID r)) = written st (log_handle (lr_ID r)) /\ is_open st' (log_handle (lr_ID r)) = is_open st (log_handle (lr_ID r))) /\
    written st' stdout = written st stdout ++ (if log_stdout o then lines (lr_prints r) else []) /\
    is_open st' stdout = (is_open st stdout && (negb (log_stdout o) || (stdout =? terminal))) /\
    (forall h, h <> stdout -> h <> log_handle (lr_ID r) -> written st' h = written st h /\ is_open st' h = is_open st h).
Proof.
  intros o stdout r st Hi Hne Hop.
  set (st1 := if log_file o then open_log (lr_ID r) st else st).
  set (dest := destinations o stdout (lr_ID r)).
  assert (O1 : forall h, h <> log_handle (lr_ID r) -> is_open st1 h = is_open st h /\ written st1 h = written st h).
  { intros h Hh. unfold st1. destruct (log_file o); [|auto]. cbn [open_log is_open written]. rewrite !upd_other by assumption. auto. }
  assert (AO : all_open dest st1).
  { intros h Hh. apply destinations_in in Hh. destruct Hh as [[Hl ->] | [Hl ->]].
    - rewrite (proj1 (O1 stdout Hne)). apply Hop, Hl.
    - unfold st1. rewrite Hl. cbn [open_log is_open]. apply upd_same. }
  destruct (prints_ok (lr_prints r) dest st1 (destinations_nodup _ _ _ Hne) AO) as [st2 [E2 W2]].
  pose proof (close_fold dest st2) as [CW [CC CO]].
  set (st' := fold_left (fun st h => if h =? terminal then st else close_one h st) dest st2) in *.
  assert (EC : close dest st2 = (st', Ok tt)).
  { unfold close. rewrite flush_ok by (eapply wrote_open; eassumption). reflexivity. }
  destruct W2 as [WO [WI WN]].
  assert (Hlt : log_handle (lr_ID r) <> terminal) by (unfold log_handle, terminal; lia).
  exists st'. split; [|split; [|split; [|split; [|split]]]].
  - unfold run_algorithm. rewrite Hi. fold st1 dest. rewrite E2, EC. destruct (lr_outcome r); reflexivity.
  - intro Hl. assert (Hin : In (log_handle (lr_ID r)) dest) by (apply destinations_in; auto). split.
    + rewrite CW, WI by assumption. unfold st1. rewrite Hl. cbn [open_log written]. rewrite upd_same. reflexivity.
    + apply CC; assumption.
  - intro Hl. assert (Hin : ~ In (log_handle (lr_ID r)) dest) by (intro H; apply destinations_in in H; destruct H as [[_ H] | [H _]]; congruence).
    split; [rewrite CW, WN by assumption | rewrite CO, WO by now left]; unfold st1; rewrite Hl; reflexivity.
  - rewrite CW. destruct (log_stdout o) eqn:Hl.
    + rewrite WI by (apply destinations_in; auto). rewrite (proj2 (O1 _ Hne)). reflexivity.
    + rewrite WN, app_nil_r by (intro H; apply destinations_in in H; destruct H as [[H _] | [_ H]]; congruence). apply O1, Hne.
  - destruct (log_stdout o) eqn:Hl; cbn [negb orb].
    + destruct (Nat.eqb_spec stdout terminal) as [Ht|Ht].
      * rewrite CO, WO by now right. rewrite (proj1 (O1 _ Hne)), andb_true_r. reflexivity.
      * rewrite andb_false_r. apply CC; [apply destinations_in; auto|assumption].
    + rewrite andb_true_r, CO, WO by (left; intro H; apply destinations_in in H; destruct H as [[H _] | [_ H]]; congruence). apply O1, Hne.
  - intros h H1 H2. assert (Hin : ~ In h dest) by (intro H; apply destinations_in in H; destruct H as [[_ H] | [_ H]]; congruence).
    rewrite CW, WN, CO, WO by (assumption || now left). destruct (O1 h H2). auto.
Qed.

(** ** C58, part 1: the log of a run is exactly what the run printed, and it is closed, whether the run
    finishes or raises; the failure that comes out is the run's own. *)
Theorem C58_log_holds_the_output : forall o stdout r st st' res,
  log_file o = true -> lr_init r = Ok tt -> stdout <> log_handle (lr_ID r) -> is_open st stdout = true ->
  run_algorithm o stdout r st = (st', res) ->
  written st' (log_handle (lr_ID r)) = lines (lr_prints r) /\ is_open st' (log_handle (lr_ID r)) = false /\
  (forall e, lr_outcome r = Err e -> res = Err e) /\
  (forall h, h <> stdout -> h <> log_handle (lr_ID r) -> written st' h = written st h /\ is_open st' h = is_open st h).
Proof.
  intros o stdout r st st' res Hl Hi Hne Hop E.
  destruct (run_algorithm_streams o stdout r st Hi Hne (fun _ => Hop)) as [st0 [E0 [Hlog [_ [_ [Hso Hoth]]]]]].
  rewrite E0 in E. specialize (Hlog Hl).
  assert (P : forall (s : text) a b c, print [stdout] s a = (b, c) ->
    (forall h, h <> stdout -> written b h = written a h) /\ (forall h, is_open b h = is_open a h)).
  { intros s a b c. unfold print. cbn [write]. unfold write_one. destruct (is_open a stdout) eqn:Oa.
    - cbn [is_open]. rewrite Oa. intro H. injection H as <- _. cbn [written is_open]. split; [|reflexivity]. intros h Hh. rewrite !upd_other by assumption. reflexivity.
    - intro H. injection H as <- _. auto. }
  assert (Done : (st', res) = (st0, res) \/ exists c, print [stdout] (lr_str r) st0 = (st', c)).
  { destruct (lr_outcome r); [|left; congruence]. destruct (lr_save r); [|left; congruence]. destruct (quiet o); [left; congruence|right; eauto]. }
  assert (Res : forall e, lr_outcome r = Err e -> res = Err e) by (intros e He; rewrite He in E; congruence).
  destruct Done as [D | [c D]].
  - injection D as ->. intuition.
  - apply P in D. destruct D as [DW DO]. rewrite DW, DO by (intro; apply Hne; auto).
    destruct Hlog as [-> ->]. repeat (split; [solve [auto]|]). intros h H1 H2. rewrite DW, DO by assumption. apply Hoth; assumption.
Qed.

(** ** C58, part 2: an experiment whose output goes to the terminal. *)
Lemma run_all_terminal : forall o skipped l st,
  is_open st terminal = true -> Forall (fun r => started r -> goes_well r) l ->
  exists st', run_all o terminal skipped l st = (st', Ok tt) /\ is_open st' terminal = true /\
    written st' terminal = written st terminal ++ lines (flat_map (shown o skipped) l) /\
    (log_file o = true -> NoDup (map lr_ID (filter (fun r => negb (lr_skip r)) l)) ->
       forall r, In r l -> started r -> written st' (log_handle (lr_ID r)) = lines (lr_prints r) /\ is_open st' (log_handle (lr_ID r)) = false) /\
    (forall h, h <> terminal -> (log_file o = true -> forall r, In r l -> started r -> h <> log_handle (lr_ID r)) ->
       written st' h = written st h /\ is_open st' h = is_open st h).
Proof.
  intros o skipped. induction l as [|r l IH]; intros st Hop HF.
  - exists st. split; [reflexivity|]. split; [assumption|]. split; [symmetry; apply app_nil_r|]. split; [intros _ _ r []|auto].
  - inversion HF as [|r0 l0 Hr HF']; subst. unfold run_all; fold (run_all o terminal skipped).
    assert (S1 : exists st1, (if lr_skip r then if quiet o then (st, Ok tt) else print [terminal] (skipped (lr_ID r)) st else run_algorithm o terminal r st) = (st1, Ok tt) /\
      is_open st1 terminal = true /\ written st1 terminal = written st terminal ++ lines (shown o skipped r) /\
      (log_file o = true -> started r -> written st1 (log_handle (lr_ID r)) = lines (lr_prints r) /\ is_open st1 (log_handle (lr_ID r)) = false) /\
      (forall h, h <> terminal -> (log_file o = true -> started r -> h <> log_handle (lr_ID r)) -> written st1 h = written st h /\ is_open st1 h = is_open st h)).
    { assert (P : forall s a, is_open a terminal = true -> exists b, print [terminal] s a = (b, Ok tt) /\ is_open b terminal = true /\
        written b terminal = written a terminal ++ lines [s] /\ (forall h, h <> terminal -> written b h = written a h /\ is_open b h = is_open a h)).
      { intros s a Oa. destruct (print_ok [terminal] s a) as [b [Eb [Ob [Wb Nb]]]].
        - repeat constructor. intros [].
        - intros h [<- | []]. assumption.
        - exists b. split; [exact Eb|]. split; [rewrite Ob; assumption|]. split; [apply Wb; now left|].
          intros h Hh. split; [apply Nb; intros [H | []]; congruence | apply Ob]. }
      unfold shown, started. destruct (lr_skip r) eqn:Hs.
      - destruct (quiet o).
        + exists st. split; [reflexivity|]. split; [assumption|]. split; [symmetry; apply app_nil_r|]. split; [discriminate|auto].
        + destruct (P (skipped (lr_ID r)) st Hop) as [b [Eb [Ob [Wb Nb]]]]. exists b. split; [exact Eb|]. split; [assumption|]. split; [exact Wb|].
          split; [discriminate|auto].
      - destruct (Hr Hs) as [Hi [Ho Hv]].
        assert (Hne : terminal <> log_handle (lr_ID r)) by (unfold terminal, log_handle; lia).
        destruct (run_algorithm_streams o terminal r st Hi Hne (fun _ => Hop)) as [st0 [E0 [Hlog [Hnolog [HW [HO Hoth]]]]]].
        rewrite Ho, Hv in E0. change (terminal =? terminal) with true in HO. rewrite orb_true_r, andb_true_r, Hop in HO.
        assert (Hrest : forall h, h <> terminal -> (log_file o = true -> false = false -> h <> log_handle (lr_ID r)) -> written st0 h = written st h /\ is_open st0 h = is_open st h).
        { intros h H1 H2. destruct (log_file o) eqn:Hl.
          - apply Hoth; auto.
          - destruct (Nat.eq_dec h (log_handle (lr_ID r))) as [-> | Hd]; [apply Hnolog; reflexivity|apply Hoth; assumption]. }
        destruct (quiet o).
        + exists st0. split; [exact E0|]. split; [assumption|]. split.
          { rewrite HW, app_nil_r. destruct (log_stdout o); reflexivity. }
          split; [auto|exact Hrest].
        + destruct (P (lr_str r) st0 HO) as [b [Eb [Ob [Wb Nb]]]]. exists b. split; [congruence|]. split; [assumption|]. split.
          { rewrite Wb, HW, lines_app, app_assoc. destruct (log_stdout o); reflexivity. }
          split.
          * intros Hl _. destruct (Nb (log_handle (lr_ID r))) as [-> ->]; [congruence|]. auto.
          * intros h H1 H2. destruct (Nb h H1) as [-> ->]. apply Hrest; assumption. }
    destruct S1 as [st1 [E1 [O1 [W1 [L1 N1]]]]]. rewrite E1.
    destruct (IH st1 O1 HF') as [st2 [E2 [O2 [W2 [L2 N2]]]]].
    exists st2. split; [exact E2|]. split; [assumption|]. split; [|split].
    + rewrite W2, W1. cbn [flat_map]. rewrite lines_app, app_assoc. reflexivity.
    + intros Hl ND r' [<- | Hin] Hs'.
      * assert (ND0 := ND). cbn [filter] in ND. unfold started in Hs'. rewrite Hs' in ND. cbn [negb map] in ND. inversion ND as [|i il Hni ND']; subst.
        destruct (N2 (log_handle (lr_ID r))) as [-> ->].
        { unfold log_handle, terminal. lia. }
        { intros _ r' Hr' Hs'' He. apply Hni. assert (lr_ID r = lr_ID r') as -> by (unfold log_handle in He; lia).
          apply in_map. apply filter_In. split; [assumption|]. unfold started in Hs''. rewrite Hs''. reflexivity. }
        apply L1; assumption.
      * apply L2; [assumption| |assumption|assumption]. cbn [filter] in ND. destruct (negb (lr_skip r)); [|assumption]. inversion ND; assumption.
    + intros h H1 H2. destruct (N2 h H1) as [-> ->].
      { intros Hl r' Hr' Hs'. apply H2; [assumption|now right|assumption]. }
      apply N1; [assumption|]. intros Hl Hs'. apply H2; [assumption|now left|assumption].
Qed.

Theorem C58_terminal_transcript : forall o begins ends skipped l st,
  is_open st terminal = true -> Forall (fun r => started r -> goes_well r) l ->
  exists st', run_logged o terminal begins ends skipped l st = (st', Ok tt) /\
    is_open st' terminal = true /\
    written st' terminal = written st terminal ++ lines (transcript o begins ends skipped l) /\
    (log_file o = true -> NoDup (map lr_ID (filter (fun r => negb (lr_skip r)) l)) ->
       forall r, In r l -> started r -> written st' (log_handle (lr_ID r)) = lines (lr_prints r) /\ is_open st' (log_handle (lr_ID r)) = false) /\
    (forall h, h <> terminal -> (log_file o = true -> forall r, In r l -> started r -> h <> log_handle (lr_ID r)) ->
       written st' h = written st h /\ is_open st' h = is_open st h).
Proof.
  intros o begins ends skipped l st Hop HF.
  assert (P : forall s a, is_open a terminal = true -> exists b, print [terminal] s a = (b, Ok tt) /\ is_open b terminal = true /\
    written b terminal = written a terminal ++ lines [s] /\ (forall h, h <> terminal -> written b h = written a h /\ is_open b h = is_open a h)).
  { intros s a Oa. destruct (print_ok [terminal] s a) as [b [Eb [Ob [Wb Nb]]]].
    - repeat constructor. intros [].
    - intros h [<- | []]. assumption.
    - exists b. split; [exact Eb|]. split; [rewrite Ob; assumption|]. split; [apply Wb; now left|].
      intros h Hh. split; [apply Nb; intros [H | []]; congruence | apply Ob]. }
  assert (LH : forall r, log_handle (lr_ID r) <> terminal) by (intro r; unfold log_handle, terminal; lia).
  unfold run_logged, transcript. destruct (quiet o) eqn:Q.
  - destruct (run_all_terminal o skipped l st Hop HF) as [st2 [E2 [O2 [W2 [L2 N2]]]]]. rewrite E2.
    exists st2. rewrite app_nil_r. cbn [app]. auto.
  - destruct (P begins st Hop) as [st1 [E1 [O1 [W1 N1]]]]. rewrite E1.
    destruct (run_all_terminal o skipped l st1 O1 HF) as [st2 [E2 [O2 [W2 [L2 N2]]]]]. rewrite E2.
    destruct (P ends st2 O2) as [st3 [E3 [O3 [W3 N3]]]]. rewrite E3.
    exists st3. split; [reflexivity|]. split; [assumption|]. split; [|split].
    + rewrite W3, W2, W1, !lines_app, !app_assoc. reflexivity.
    + intros Hl ND r Hin Hs. destruct (N3 (log_handle (lr_ID r)) (LH r)) as [-> ->]. apply L2; assumption.
    + intros h H1 H2. destruct (N3 h H1) as [-> ->]. destruct (N2 h H1 H2) as [-> ->]. apply N1, H1.
Qed.

(** ** C58, part 3: the first run that raises ends the experiment with that exception; its log holds
    what it had printed, nothing of the later runs exists, and the terminal is still usable. *)
Lemma run_all_app : forall o stdout skipped l1 l2 st,
  run_all o stdout skipped (l1 ++ l2) st = match run_all o stdout skipped l1 st with (st1, Ok _) => run_all o stdout skipped l2 st1 | (st1, Err e) => (st1, Err e) end.
Proof.
  intros o stdout skipped. induction l1 as [|r l1 IH]; intros l2 st; [reflexivity|].
  cbn [app]. unfold run_all; fold (run_all o stdout skipped).
  destruct (if lr_skip r then _ else _) as [st1 [u|e]]; [apply IH|reflexivity].
Qed.
Theorem C58_first_failure : forall o begins ends skipped l1 r l2 st e,
  is_open st terminal = true -> Forall (fun r => started r -> goes_well r) l1 ->
  started r -> lr_init r = Ok tt -> lr_outcome r = Err e ->
  NoDup (map lr_ID (filter (fun r => negb (lr_skip r)) (l1 ++ r :: l2))) ->
  exists st', run_logged o terminal begins ends skipped (l1 ++ r :: l2) st = (st', Err e) /\
    is_open st' terminal = true /\
    written st' terminal = written st terminal ++
      lines ((if quiet o then [] else [begins]) ++ flat_map (shown o skipped) l1 ++ (if log_stdout o then lr_prints r else [])) /\
    (log_file o = true -> forall r', In r' (l1 ++ [r]) -> started r' -> written st' (log_handle (lr_ID r')) = lines (lr_prints r') /\ is_open st' (log_handle (lr_ID r')) = false) /\
    (forall r', In r' l2 -> started r' -> written st' (log_handle (lr_ID r')) = written st (log_handle (lr_ID r')) /\ is_open st' (log_handle (lr_ID r')) = is_open st (log_handle (lr_ID r'))).
Proof.
  intros o begins ends skipped l1 r l2 st e Hop HF Hs Hi He ND.
  assert (LH : forall r, log_handle (lr_ID r) <> terminal) by (intro; unfold log_handle, terminal; lia).
  assert (LI : forall a b, log_handle a = log_handle b -> a = b) by (unfold log_handle; intros; lia).
  assert (HB : exists st1, (if quiet o then (st, Ok tt) else print [terminal] begins st) = (st1, Ok tt) /\ is_open st1 terminal = true /\
    written st1 terminal = written st terminal ++ lines (if quiet o then [] else [begins]) /\ (forall h, h <> terminal -> written st1 h = written st h /\ is_open st1 h = is_open st h)).
  { destruct (quiet o).
    - exists st. repeat (split; [solve [auto | symmetry; apply app_nil_r]|]). auto.
    - destruct (print_ok [terminal] begins st) as [b [Eb [Ob [Wb Nb]]]].
      + repeat constructor. intros [].
      + intros h [<- | []]. assumption.
      + exists b. split; [exact Eb|]. split; [rewrite Ob; assumption|]. split; [apply Wb; now left|].
        intros h Hh. split; [apply Nb; intros [H | []]; congruence | apply Ob]. }
  destruct HB as [st1 [E1 [O1 [W1 N1]]]].
  destruct (run_all_terminal o skipped l1 st1 O1 HF) as [st2 [E2 [O2 [W2 [L2 N2]]]]].
  destruct (run_algorithm_streams o terminal r st2 Hi (fun H => LH r (eq_sym H)) (fun _ => O2)) as [st3 [E3 [Hlog [Hnolog [HW [HO Hoth]]]]]].
  rewrite He in E3. change (terminal =? terminal) with true in HO. rewrite orb_true_r, andb_true_r, O2 in HO.
  rewrite filter_app, map_app in ND. cbn [filter] in ND. unfold started in Hs. rewrite Hs in ND. cbn [negb map] in ND.
  assert (IDin : forall r' l, In r' l -> started r' -> In (lr_ID r') (map lr_ID (filter (fun r => negb (lr_skip r)) l))).
  { intros r' l Hin Hs'. apply in_map, filter_In. split; [assumption|]. unfold started in Hs'. rewrite Hs'. reflexivity. }
  assert (ND1 : NoDup (map lr_ID (filter (fun r => negb (lr_skip r)) l1))).
  { clear -ND. induction (map lr_ID (filter _ l1)) as [|x xs IH]; [constructor|]. cbn [app] in ND. inversion ND; subst.
    constructor; [intro; apply H1; apply in_or_app; now left|auto]. }
  assert (Dr : forall r', In r' l1 -> started r' -> lr_ID r' <> lr_ID r).
  { intros r' Hin Hs' Heq. apply NoDup_remove_2 in ND. apply ND. apply in_or_app. left. rewrite <- Heq. apply IDin; assumption. }
  assert (Dr2 : forall r', In r' l2 -> started r' -> lr_ID r' <> lr_ID r).
  { intros r' Hin Hs' Heq. apply NoDup_remove_2 in ND. apply ND. apply in_or_app. right. rewrite <- Heq. apply IDin; assumption. }
  assert (D12 : forall r1 r2, In r1 l1 -> In r2 l2 -> started r1 -> started r2 -> lr_ID r1 <> lr_ID r2).
  { intros r1 r2 I1 I2 S1 S2 Heq. apply NoDup_remove_1 in ND. apply (IDin r1 l1 I1) in S1. apply (IDin r2 l2 I2) in S2.
    rewrite Heq in S1. clear -ND S1 S2. induction (map lr_ID (filter _ l1)) as [|x xs IH]; [destruct S1|]. cbn [app] in ND. inversion ND; subst.
    destruct S1 as [-> | S1]; [apply H1; apply in_or_app; now right|apply IH; assumption]. }
  exists st3. split; [|split; [assumption|split; [|split]]].
  - unfold run_logged. rewrite E1, run_all_app, E2. unfold run_all; fold (run_all o terminal skipped). rewrite Hs, E3. reflexivity.
  - rewrite HW, W2, W1, !lines_app, !app_assoc. destruct (log_stdout o); reflexivity.
  - intros Hl r' Hin Hs'. apply in_app_or in Hin. destruct Hin as [Hin | [<- | []]].
    + destruct (Hoth (log_handle (lr_ID r'))) as [-> ->]; [apply LH| |].
      { intro H. apply LI in H. revert H. apply Dr; assumption. }
      apply L2; assumption.
    + apply Hlog, Hl.
  - intros r' Hin Hs'. destruct (Hoth (log_handle (lr_ID r'))) as [-> ->]; [apply LH| |].
    { intro H. apply LI in H. revert H. apply Dr2; assumption. }
    destruct (N2 (log_handle (lr_ID r')) (LH r')) as [-> ->].
    { intros _ r1 I1 S1 H. apply LI in H. symmetry in H. revert H. apply D12; assumption. }
    apply N1, LH.
Qed.

(** ** C58, part 4: a caller that has redirected sys.stdout (contextlib.redirect_stdout, a test runner)
    loses that stream: with algorithm_run_log__stdout, the default, the first run closes it. *)
Theorem C58_captured_stdout_is_closed : forall o stdout r st st' res,
  log_stdout o = true -> stdout <> terminal -> stdout <> log_handle (lr_ID r) -> lr_init r = Ok tt -> is_open st stdout = true ->
  run_algorithm o stdout r st = (st', res) ->
  is_open st' stdout = false /\ written st' stdout = written st stdout ++ lines (lr_prints r) /\
  (goes_well r -> res = if quiet o then Ok tt else Err ValueError).
Proof.
  intros o stdout r st st' res Hl Ht Hne Hi Hop E.
  destruct (run_algorithm_streams o stdout r st Hi Hne (fun _ => Hop)) as [st0 [E0 [_ [_ [HW [HO _]]]]]].
  rewrite Hl in HO, HW. cbn [negb orb] in HO. destruct (Nat.eqb_spec stdout terminal); [contradiction|]. rewrite andb_false_r in HO.
  rewrite E0 in E. unfold print in E. cbn [write] in E. unfold write_one in E. rewrite HO in E.
  unfold goes_well.
  destruct (lr_outcome r); [destruct (lr_save r); [destruct (quiet o)|]|]; injection E as <- <-; (split; [assumption|]); (split; [assumption|]); intros [_ [H1 H2]]; congruence.
Qed.
(** the second run then fails whatever it does, even when it prints nothing and everything is quiet *)
Theorem C58_second_run_fails : forall o stdout begins ends skipped r1 r2 l st,
  log_stdout o = true -> stdout <> terminal -> stdout <> log_handle (lr_ID r1) -> stdout <> log_handle (lr_ID r2) ->
  is_open st stdout = true -> started r1 -> started r2 -> goes_well r1 -> goes_well r2 ->
  exists st', run_logged o stdout begins ends skipped (r1 :: r2 :: l) st = (st', Err ValueError) /\
    written st' stdout = written st stdout ++ lines ((if quiet o then [] else [begins]) ++ lr_prints r1) /\
    (log_file o = true -> lr_ID r1 <> lr_ID r2 -> written st' (log_handle (lr_ID r1)) = lines (lr_prints r1) /\
       (quiet o = false -> written st' (log_handle (lr_ID r2)) = written st (log_handle (lr_ID r2))) /\
       (quiet o = true -> written st' (log_handle (lr_ID r2)) = [])).
Proof.
  intros o stdout begins ends skipped r1 r2 l st Hl Ht Hn1 Hn2 Hop S1 S2 [Hi1 [Ho1 Hv1]] [Hi2 [Ho2 Hv2]].
  assert (HB : exists st1, (if quiet o then (st, Ok tt) else print [stdout] begins st) = (st1, Ok tt) /\ is_open st1 stdout = true /\
    written st1 stdout = written st stdout ++ lines (if quiet o then [] else [begins]) /\ (forall h, h <> stdout -> written st1 h = written st h /\ is_open st1 h = is_open st h)).
  { destruct (quiet o).
    - exists st. repeat (split; [solve [auto | symmetry; apply app_nil_r]|]). auto.
    - destruct (print_ok [stdout] begins st) as [b [Eb [Ob [Wb Nb]]]].
      + repeat constructor. intros [].
      + intros h [<- | []]. assumption.
      + exists b. split; [exact Eb|]. split; [rewrite Ob; assumption|]. split; [apply Wb; now left|].
        intros h Hh. split; [apply Nb; intros [H | []]; congruence | apply Ob]. }
  destruct HB as [sta [Ea [Oa [Wa Na]]]].
  destruct (run_algorithm_streams o stdout r1 sta Hi1 Hn1 (fun _ => Oa)) as [st1 [E1 [Hlog [_ [HW [HO Hoth]]]]]].
  rewrite Hl in HO, HW. cbn [negb orb] in HO. destruct (Nat.eqb_spec stdout terminal); [contradiction|]. rewrite andb_false_r in HO.
  rewrite Ho1, Hv1 in E1.
  assert (LN : lr_ID r1 <> lr_ID r2 -> log_handle (lr_ID r2) <> log_handle (lr_ID r1)) by (unfold log_handle; lia).
  unfold run_logged. rewrite Ea. unfold run_all; fold (run_all o stdout skipped). unfold started in S1, S2. rewrite S1, S2.
  destruct (quiet o) eqn:Q.
  - (* quiet: the second run is started *)
    rewrite E1. set (stb := if log_file o then open_log (lr_ID r2) st1 else st1).
    assert (Ob : is_open stb stdout = false).
    { unfold stb. destruct (log_file o); [|assumption]. cbn [open_log is_open]. rewrite upd_other by assumption. assumption. }
    set (dest := destinations o stdout (lr_ID r2)).
    assert (Hd : exists ds, dest = stdout :: ds) by (unfold dest, destinations; rewrite Hl; cbn [app]; eauto). destruct Hd as [ds Hd].
    assert (HP : exists c, prints dest (lr_prints r2) stb = (stb, c)).
    { clearbody stb dest. rewrite Hd. destruct (lr_prints r2) as [|s ss]; [exists (Ok tt); reflexivity|]. cbn [prints]. unfold print. cbn [write]. unfold write_one. rewrite Ob. eexists; reflexivity. }
    destruct HP as [c HP].
    assert (HC : close dest stb = (stb, Err ValueError)) by (unfold close; rewrite Hd; cbn [flush]; unfold flush_one; rewrite Ob; reflexivity).
    exists stb. split; [|split].
    + unfold run_algorithm at 1. rewrite Hi2. fold stb dest. rewrite HP, HC. reflexivity.
    + unfold stb. transitivity (written st1 stdout).
      { destruct (log_file o); [|reflexivity]. cbn [open_log written]. apply upd_other. assumption. }
      rewrite HW, Wa, lines_app, !app_assoc. reflexivity.
    + intros Hf Hd12. unfold stb. rewrite Hf. cbn [open_log written]. rewrite upd_other by (intro H; apply (LN Hd12); auto).
      split; [apply Hlog, Hf|]. split; [discriminate|]. intros _. apply upd_same.
  - unfold print in E1. cbn [write] in E1. unfold write_one in E1. rewrite HO in E1. rewrite E1.
    exists st1. split; [reflexivity|]. split.
    + rewrite HW, Wa, lines_app, !app_assoc. reflexivity.
    + intros Hf Hd12. split; [apply Hlog, Hf|]. split; [|discriminate]. intros _.
      destruct (Hoth (log_handle (lr_ID r2))) as [-> _]; [intro H; apply Hn2; auto|auto|]. apply Na. intro H; apply Hn2; auto.
Qed.

(** ** C58, part 5: two started runs with the same ID share one log file: the second empties it. *)
Theorem C58_same_ID_overwrites : exists o l st st',
  Forall (fun r => started r /\ goes_well r) l /\ log_file o = true /\
  run_logged o terminal [] [] (fun _ => []) l st = (st', Ok tt) /\
  exists r, In r l /\ lr_prints r <> [] /\ written st' (log_handle (lr_ID r)) <> lines (lr_prints r).
Proof.
  pose (mk := fun ss => {| lr_ID := 3; lr_skip := false; lr_init := Ok tt; lr_prints := ss; lr_outcome := Ok tt; lr_save := Ok tt; lr_str := [] |}).
  exists {| log_stdout := false; log_file := true; quiet := true |}, [mk [[65]]; mk [[66]]], {| written := fun _ => []; is_open := fun h => h =? 0 |}.
  eexists. split.
  { repeat constructor. }
  split; [reflexivity|]. split; [reflexivity|]. exists (mk [[65]]). split; [now left|]. split; [discriminate|]. cbn. discriminate.
Qed.

(** the hypotheses hold for a concrete experiment of three entries *)
Theorem C58_nonvacuous :
  let o := {| log_stdout := true; log_file := true; quiet := false |} in
  let mk := fun id skip ss => {| lr_ID := id; lr_skip := skip; lr_init := Ok tt; lr_prints := ss; lr_outcome := Ok tt; lr_save := Ok tt; lr_str := [90 + id] |} in
  let l := [mk 0 false [[65]; [66]]; mk 1 true [[67]]; mk 2 false []] in
  let st := {| written := fun _ => []; is_open := fun h => h <=? 1 |} in
  is_open st terminal = true /\ Forall (fun r => started r -> goes_well r) l /\
  NoDup (map lr_ID (filter (fun r => negb (lr_skip r)) l)) /\
  written (fst (run_logged o terminal [1] [2] (fun i => [3; i]) l st)) terminal = [1; 10; 65; 10; 66; 10; 90; 10; 3; 1; 10; 92; 10; 2; 10] /\
  snd (run_logged o 1 [1] [2] (fun i => [3; i]) l st) = Err ValueError /\ written (fst (run_logged o 1 [1] [2] (fun i => [3; i]) l st)) 1 = [1; 10; 65; 10; 66; 10].
Proof.
  cbv zeta. split; [reflexivity|]. split; [repeat constructor; discriminate|]. split.
  { cbn. repeat constructor; cbn; intuition discriminate. }
  repeat split.
Qed.
