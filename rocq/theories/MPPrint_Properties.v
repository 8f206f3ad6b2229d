(** C79.  However the processes are scheduled, and even if some are killed, the lines of one mpprint call are never mixed with those of another:
    the terminal shows the calls one after the other, each process's calls in its order, every line with the number of its process. *)
From Coq Require Import DecimalNat.
From Verif Require Import Base Matrix_Model Sources_Model MPPrint_Model.
Open Scope list_scope.
Set Warnings "-abstract-large-number".

(** *** specification *)
(** the line boundaries of Unicode *)
Definition breaks (c : nat) : Prop := 10 <= c /\ c <= 13 \/ 28 <= c /\ c <= 30 \/ c = 133 \/ c = 8232 \/ c = 8233.
(** no line break inside *)
Definition one_line (l : text) : Prop := forall c, In c l -> ~ breaks c.
(** the lines of a text: each ends with a line break ("\r\n" is one, and "\r" before "\n" is not), the last may do without *)
Inductive lines_of : text -> list text -> Prop :=
| no_lines : lines_of [] []
| last_line l : l <> [] -> one_line l -> lines_of l [l]
| a_line l c t ls : one_line l -> breaks c -> (c = 13 -> forall t', t <> 10 :: t') -> lines_of t ls -> lines_of (l ++ c :: t) (l :: ls)
| a_line_crlf l t ls : one_line l -> lines_of t ls -> lines_of (l ++ 13 :: 10 :: t) (l :: ls).
(** "P", the number of the process, blanks up to six columns, " :|", a tabulator *)
Definition mark (pid : nat) : text := let d := digits (Nat.to_uint pid) in 80 :: d ++ repeat 32 (6 - length d) ++ [32; 58; 124; 9].
(** what one call shows: each line of the text marked, or one empty line for a text without lines *)
Definition shown (pid : nat) (t : text) (b : text) : Prop :=
  exists ls, lines_of t ls /\ b = match ls with [] => [10] | _ => concat (map (fun l => mark pid ++ l ++ [10]) ls) end.
(** the texts among the calls *)
Definition texts (cs : list call) : list text := flat_map (fun c => match c with Txt t => [t] | NotText => [] end) cs.
(** the texts that process [i] has printed according to a log of (process, text, what was shown) *)
Definition printed_by (i : nat) (log : list (nat * text * text)) : list text := map (fun x => snd (fst x)) (filter (fun x => Nat.eqb (fst (fst x)) i) log).

(** *** lines *)
Lemma line_break_spec c : line_break c = true <-> breaks c.
Proof.
  unfold line_break, breaks. rewrite existsb_exists. generalize 8232, 8233. intros a b. split.
  - intros (x & Hx & E). apply Nat.eqb_eq in E. subst x. cbn [In] in Hx. intuition lia.
  - intros H. exists c. rewrite Nat.eqb_refl. split; [|reflexivity]. cbn [In].
    assert (c = 10 \/ c = 11 \/ c = 12 \/ c = 13 \/ c = 28 \/ c = 29 \/ c = 30 \/ c = 133 \/ c = a \/ c = b) as Q by lia.
    clear H. repeat (destruct Q as [->|Q]; [auto 12|]). subst c. auto 12.
Qed.
Lemma splitlines_spec t : forall cr cur, one_line (rev cur) -> (cr = true -> cur = []) ->
  (forall t', t = 10 :: t' -> cr = true -> lines_of t' (splitlines_from cr cur t)) /\
  ((cr = true -> forall t', t <> 10 :: t') -> lines_of (rev cur ++ t) (splitlines_from cr cur t)).
Proof.
  induction t as [|c t IH]; intros cr cur Hc Hr.
  - split; [discriminate|]. intros _. cbn [splitlines_from]. rewrite app_nil_r. destruct cur as [|x cur]; [constructor|].
    apply last_line; [|assumption]. cbn [rev]. intros E. apply app_eq_nil in E. destruct E; discriminate.
  - split.
    + intros t' E ->. injection E as -> <-. cbn [splitlines_from andb]. rewrite Nat.eqb_refl.
      destruct (IH false []) as (_ & H); [intros z []|reflexivity|]. apply H. discriminate.
    + intros N. cbn [splitlines_from]. destruct (cr && Nat.eqb c 10) eqn:E.
      { apply andb_prop in E. destruct E as (-> & E). apply Nat.eqb_eq in E. subst c. exfalso. apply (N eq_refl t). reflexivity. }
      assert (BB := line_break_spec c). destruct (line_break c) eqn:B; [apply proj1 in BB; specialize (BB eq_refl)|].
      * destruct (IH (Nat.eqb c 13) []) as (H1 & H2); [intros z []|reflexivity|].
        destruct (Nat.eqb_spec c 13) as [->|Nc].
        -- destruct t as [|d t]; [apply a_line; [assumption|assumption|discriminate|apply H2; discriminate]|].
           destruct (Nat.eq_dec d 10) as [->|Nd].
           ++ apply a_line_crlf; [assumption|]. apply H1; reflexivity.
           ++ apply a_line; [assumption|assumption|intros _ t' E'; congruence|apply H2; intros _ t' E'; congruence].
        -- apply a_line; [assumption|assumption|contradiction|apply H2; discriminate].
      * destruct (IH false (c :: cur)) as (_ & H).
        -- cbn [rev]. intros z Hz. apply in_app_iff in Hz. destruct Hz as [Hz|[<-|[]]]; [apply Hc, Hz|]. intros Q. apply BB in Q. discriminate.
        -- discriminate.
        -- specialize (H ltac:(discriminate)). cbn [rev] in H. rewrite <- app_assoc in H. exact H.
Qed.
Lemma splitlines_lines t : lines_of t (splitlines t).
Proof. unfold splitlines. destruct (splitlines_spec t false []) as (_ & H); [intros z []|reflexivity|]. apply H. discriminate. Qed.
Lemma join_marked pid : forall ls, ls <> [] -> join_lines (map (format_line pid) ls) ++ [10] = concat (map (fun l => mark pid ++ l ++ [10]) ls).
Proof.
  assert (F : forall l, format_line pid l = mark pid ++ l) by (intros l; unfold format_line, mark; cbn [app]; rewrite <- !app_assoc; reflexivity).
  induction ls as [|l [|l' ls] IH]; intros N; [contradiction| |].
  - cbn [map join_lines concat]. rewrite F, app_nil_r, <- app_assoc. reflexivity.
  - specialize (IH ltac:(discriminate)). change (concat (map (fun l => mark pid ++ l ++ [10]) (l :: l' :: ls))) with ((mark pid ++ l ++ [10]) ++ concat (map (fun l => mark pid ++ l ++ [10]) (l' :: ls))).
    rewrite <- IH. change (map (format_line pid) (l :: l' :: ls)) with (format_line pid l :: map (format_line pid) (l' :: ls)).
    set (r := map (format_line pid) (l' :: ls)). assert (Er : r <> []) by discriminate. clearbody r.
    change (join_lines (format_line pid l :: r)) with (match r with [] => format_line pid l | _ => format_line pid l ++ 10 :: join_lines r end).
    destruct r as [|x r]; [contradiction|]. rewrite F, <- !app_assoc. reflexivity.
Qed.
Lemma block_shown pid t : shown pid t (prepend_pid pid t ++ [10]).
Proof.
  exists (splitlines t). split; [apply splitlines_lines|]. unfold prepend_pid. destruct (splitlines t) as [|l ls] eqn:E; [reflexivity|].
  apply join_marked. discriminate.
Qed.

(** *** the invariant *)
Lemma put_len ps i p : i < length ps -> length (put_proc ps i p) = length ps.
Proof. intros H. unfold put_proc. rewrite app_length, firstn_length_le by lia. cbn [length]. rewrite skipn_length. lia. Qed.
Lemma put_same ps i p : i < length ps -> nth_error (put_proc ps i p) i = Some p.
Proof. intros H. unfold put_proc. rewrite nth_error_app2, firstn_length_le, Nat.sub_diag by (rewrite ?firstn_length_le; lia). reflexivity. Qed.
Lemma put_other : forall i ps j p, i < length ps -> j <> i -> nth_error (put_proc ps i p) j = nth_error ps j.
Proof.
  induction i as [|i IH]; intros [|x ps] j p L N; cbn [length] in L; try lia.
  - destruct j; [lia|]. reflexivity.
  - destruct j; [reflexivity|]. unfold put_proc in *. cbn [firstn skipn app nth_error]. apply (IH ps j p); lia.
Qed.
Definition active (p : proc) : Prop := match p_phase p with Acquired _ | Writing _ | Flushed => True | _ => False end.
Section Inv.
  Variable ps : list (nat * list call).
  (** what is known about process [i] with beginning [p0] *)
  Definition proc_inv (lock : bool) (log : list (nat * text * text)) (part : text) (i : nat) (p0 : nat * list call) (p : proc) : Prop :=
    p_pid p = fst p0 /\
    match p_phase p with
    | Ready => texts (snd p0) = printed_by i log ++ texts (p_calls p)
    | Acquired c => lock = true /\ part = [] /\ texts (snd p0) = printed_by i log ++ texts (c :: p_calls p)
    | Writing buffer => lock = true /\ buffer <> [] /\ exists t, shown (fst p0) t (part ++ buffer) /\ texts (snd p0) = printed_by i log ++ t :: texts (p_calls p)
    | Flushed => lock = true /\ part = [] /\ texts (snd p0) = printed_by i log ++ texts (p_calls p)
    | Dead => exists rest, texts (snd p0) = printed_by i log ++ rest
    end.
  Record Inv (w : world) (log : list (nat * text * text)) (part : text) : Prop := {
    i_len : length (w_procs w) = length ps;
    i_out : w_out w = concat (map snd log) ++ part;
    i_log : forall i t b, In (i, t, b) log -> exists p0, nth_error ps i = Some p0 /\ shown (fst p0) t b;
    i_proc : forall i p0 p, nth_error ps i = Some p0 -> nth_error (w_procs w) i = Some p -> proc_inv (w_lock w) log part i p0 p;
    i_one : forall i j p q, nth_error (w_procs w) i = Some p -> nth_error (w_procs w) j = Some q -> active p -> active q -> i = j;
    i_free : w_lock w = false -> part = [] /\ forall i p, nth_error (w_procs w) i = Some p -> ~ active p;
    i_part : part = [] \/ exists i p0 t rest more, nth_error ps i = Some p0 /\ texts (snd p0) = printed_by i log ++ t :: rest /\ shown (fst p0) t (part ++ more) }.

  Lemma printed_other i j t b log : i <> j -> printed_by j (log ++ [(i, t, b)]) = printed_by j log.
  Proof. intros N. unfold printed_by. rewrite filter_app, map_app. cbn [filter fst]. apply Nat.eqb_neq in N. rewrite N, app_nil_r. reflexivity. Qed.
  Lemma printed_same i t b log : printed_by i (log ++ [(i, t, b)]) = printed_by i log ++ [t].
  Proof. unfold printed_by. rewrite filter_app, map_app. cbn [filter fst]. rewrite Nat.eqb_refl. reflexivity. Qed.
  (** facts about a process that is not active depend on neither the lock nor the unfinished part *)
  Lemma idle_inv lock lock' log part part' i p0 p : ~ active p -> proc_inv lock log part i p0 p -> proc_inv lock' log part' i p0 p.
  Proof. unfold active, proc_inv. destruct (p_phase p); tauto. Qed.
  Lemma idle_log lock log part i j t b p0 p : i <> j -> ~ active p -> proc_inv lock log part j p0 p -> proc_inv lock (log ++ [(i, t, b)]) part j p0 p.
  Proof. intros N. unfold active, proc_inv. rewrite printed_other by assumption. auto. Qed.

  (** replacing process [i] *)
  Lemma Inv_put w log part i p p' log' part' lock' out' :
    Inv w log part -> nth_error (w_procs w) i = Some p ->
    out' = concat (map snd log') ++ part' ->
    (forall k t b, In (k, t, b) log' -> exists p0, nth_error ps k = Some p0 /\ shown (fst p0) t b) ->
    (forall p0, nth_error ps i = Some p0 -> proc_inv lock' log' part' i p0 p') ->
    (forall j p0 q, j <> i -> nth_error ps j = Some p0 -> nth_error (w_procs w) j = Some q -> proc_inv (w_lock w) log part j p0 q -> proc_inv lock' log' part' j p0 q) ->
    (active p' -> forall j q, j <> i -> nth_error (w_procs w) j = Some q -> ~ active q) ->
    (lock' = false -> part' = [] /\ ~ active p' /\ forall j q, j <> i -> nth_error (w_procs w) j = Some q -> ~ active q) ->
    (part' = [] \/ exists j p0 t rest more, nth_error ps j = Some p0 /\ texts (snd p0) = printed_by j log' ++ t :: rest /\ shown (fst p0) t (part' ++ more)) ->
    Inv (World out' lock' (put_proc (w_procs w) i p')) log' part'.
  Proof.
    intros I E Ho Hl Hp Hq Ha Hf Hpt. assert (Li : i < length (w_procs w)) by (apply nth_error_Some; congruence).
    assert (G : forall j q, nth_error (put_proc (w_procs w) i p') j = Some q -> j = i /\ q = p' \/ j <> i /\ nth_error (w_procs w) j = Some q).
    { intros j q Hj. destruct (Nat.eq_dec j i) as [->|N]; [rewrite put_same in Hj by assumption; left; split; congruence|].
      rewrite put_other in Hj by assumption. auto. }
    split; cbn [w_procs w_out w_lock].
    - rewrite put_len by assumption. apply I.
    - assumption.
    - assumption.
    - intros j p0 q H0 Hj. apply G in Hj. destruct Hj as [(-> & ->)|(N & Hj)]; [apply Hp, H0|].
      apply (Hq j p0 q); try assumption. apply (i_proc _ _ _ I); assumption.
    - intros j k q r Hj Hk Aq Ar. apply G in Hj, Hk. destruct Hj as [(-> & ->)|(N & Hj)], Hk as [(-> & ->)|(N' & Hk)].
      + reflexivity.
      + exfalso. exact (Ha Aq k r N' Hk Ar).
      + exfalso. exact (Ha Ar j q N Hj Aq).
      + apply (i_one _ _ _ I j k q r); assumption.
    - intros F. destruct (Hf F) as (F1 & F2 & F3). split; [assumption|]. intros j q Hj. apply G in Hj. destruct Hj as [(-> & ->)|(N & Hj)]; [assumption|].
      apply (F3 j); assumption.
    - assumption.
  Qed.
  Lemma proc_exists w log part i p : Inv w log part -> nth_error (w_procs w) i = Some p -> exists p0, nth_error ps i = Some p0.
  Proof.
    intros I E. destruct (nth_error ps i) as [p0|] eqn:E0; [eauto|]. exfalso. apply nth_error_None in E0.
    assert (i < length (w_procs w)) by (apply nth_error_Some; congruence). rewrite (i_len _ _ _ I) in *. lia.
  Qed.
  Lemma step_inv w log part e : Inv w log part -> exists log' part', Inv (mp_step w e) log' part'.
  Proof.
    intros I. destruct e as [i k|i]; cbn [mp_step].
    - destruct (nth_error (w_procs w) i) as [p|] eqn:E; [|eauto]. destruct (proc_exists _ _ _ _ _ I E) as (p0 & E0).
      pose proof (i_proc _ _ _ I i p0 p E0 E) as P. unfold proc_inv in P. destruct P as (Pp & P).
      assert (Other : forall j q, j <> i -> active p -> nth_error (w_procs w) j = Some q -> ~ active q).
      { intros j q N Ap Hj Aq. apply N. apply (i_one _ _ _ I j i q p); assumption. }
      assert (Same : Inv (World (w_out w) (w_lock w) (put_proc (w_procs w) i p)) log part).
      { apply (Inv_put w log part i p); try assumption.
        - apply I. - apply I.
        - intros p1 E1. apply (i_proc _ _ _ I); assumption.
        - auto.
        - intros Ap j q N. apply Other; assumption.
        - intros F. destruct (i_free _ _ _ I F) as (F1 & F2). split; [assumption|]. split; [apply (F2 i), E|]. intros j q _. apply F2.
        - apply I. }
      unfold move. destruct (p_phase p) as [|c|buffer| |] eqn:Ph.
      + destruct (p_calls p) as [|c cs] eqn:Ec; [eauto|]. destruct (w_lock w) eqn:El; [eauto|].
        destruct (i_free _ _ _ I El) as (F1 & F2). exists log, part. apply (Inv_put w log part i p); try assumption.
        * apply I. * apply I.
        * intros p1 E1. assert (p1 = p0) by congruence. subst p1. split; [exact Pp|]. cbn [p_phase p_calls]. split; [reflexivity|]. split; assumption.
        * intros j p1 q N E1 Hj Q. apply (idle_inv (w_lock w) true log part part); [apply (F2 j), Hj|exact Q].
        * intros _ j q _ Hj. apply (F2 j), Hj.
        * discriminate.
        * left. exact F1.
      + destruct P as (Pl & Pt & P). assert (Ap : active p) by (unfold active; rewrite Ph; exact Logic.I). destruct c as [t|].
        * exists log, part. rewrite Pl. apply (Inv_put w log part i p); try assumption.
          -- apply I. -- apply I.
          -- intros p1 E1. assert (p1 = p0) by congruence. subst p1. split; [exact Pp|]. cbn [p_phase p_calls]. split; [reflexivity|].
             split; [intros Q; apply app_eq_nil in Q; destruct Q; discriminate|]. exists t. split; [rewrite Pt, Pp; apply block_shown|exact P].
          -- intros j p1 q N E1 Hj Q. rewrite Pl in Q. exact Q.
          -- intros _ j q N. apply Other; assumption.
          -- discriminate.
          -- left. exact Pt.
        * exists log, part. apply (Inv_put w log part i p); try assumption.
          -- apply I. -- apply I.
          -- intros p1 E1. assert (p1 = p0) by congruence. subst p1. split; [exact Pp|]. exact P.
          -- auto.
          -- intros [].
          -- rewrite Pl. discriminate.
          -- left. exact Pt.
      + destruct P as (Pl & Nb & t & Sh & P). assert (Ap : active p) by (unfold active; rewrite Ph; exact Logic.I).
        destruct (skipn k buffer) as [|c rest] eqn:Ek.
        * exists (log ++ [(i, t, part ++ buffer)]), []. apply (Inv_put w log part i p); try assumption.
          -- rewrite (i_out _ _ _ I), map_app, concat_app. cbn [map concat snd]. rewrite !app_nil_r, <- app_assoc. reflexivity.
          -- intros j t' b Hin. apply in_app_iff in Hin. destruct Hin as [Hin|[Hin|[]]]; [apply (i_log _ _ _ I), Hin|].
             injection Hin as <- <- <-. exists p0. auto.
          -- intros p1 E1. assert (p1 = p0) by congruence. subst p1. split; [exact Pp|]. cbn [p_phase p_calls]. split; [exact Pl|]. split; [reflexivity|].
             rewrite printed_same, <- app_assoc. exact P.
          -- intros j p1 q N E1 Hj Q. assert (Aq := Other j q N Ap Hj). apply idle_log; [congruence|assumption|]. apply (idle_inv (w_lock w) _ log part []); assumption.
          -- intros _ j q N. apply Other; assumption.
          -- rewrite Pl. discriminate.
          -- left. reflexivity.
        * exists log, (part ++ firstn k buffer). assert (Eb : (part ++ firstn k buffer) ++ c :: rest = part ++ buffer) by (rewrite <- app_assoc, <- Ek, firstn_skipn; reflexivity).
          apply (Inv_put w log part i p); try assumption.
          -- rewrite (i_out _ _ _ I), <- app_assoc. reflexivity.
          -- apply I.
          -- intros p1 E1. assert (p1 = p0) by congruence. subst p1. split; [exact Pp|]. cbn [p_phase p_calls]. split; [exact Pl|]. split; [discriminate|].
             exists t. rewrite Eb. auto.
          -- intros j p1 q N E1 Hj Q. apply (idle_inv (w_lock w) _ log part); [apply (Other j q N Ap Hj)|exact Q].
          -- intros _ j q N. apply Other; assumption.
          -- rewrite Pl. discriminate.
          -- right. exists i, p0, t, (texts (p_calls p)), (c :: rest). rewrite Eb. auto.
      + destruct P as (Pl & Pt & P). assert (Ap : active p) by (unfold active; rewrite Ph; exact Logic.I).
        exists log, part. apply (Inv_put w log part i p); try assumption.
        * apply I. * apply I.
        * intros p1 E1. assert (p1 = p0) by congruence. subst p1. split; [exact Pp|]. exact P.
        * intros j p1 q N E1 Hj Q. apply (idle_inv (w_lock w) _ log part); [apply (Other j q N Ap Hj)|exact Q].
        * intros [].
        * intros _. split; [exact Pt|]. split; [intros []|]. intros j q N. apply Other; assumption.
        * left. exact Pt.
      + eauto.
    - destruct (nth_error (w_procs w) i) as [p|] eqn:E; [|eauto]. exists log, part. apply (Inv_put w log part i p); try assumption.
      + apply I. + apply I.
      + intros p0 E0. pose proof (i_proc _ _ _ I i p0 p E0 E) as (Pp & P). split; [exact Pp|]. cbn [p_phase].
        destruct (p_phase p); [eauto| | | |exact P].
        * destruct P as (_ & _ & P). eauto.
        * destruct P as (_ & _ & t & _ & P). eauto.
        * destruct P as (_ & _ & P). eauto.
      + auto.
      + intros [].
      + intros F. destruct (i_free _ _ _ I F) as (F1 & F2). split; [assumption|]. split; [intros []|]. intros j q _. apply F2.
      + apply I.
  Qed.
  Lemma start_inv : Inv (start ps) [] [].
  Proof.
    split; cbn [start w_procs w_out w_lock].
    - apply map_length.
    - reflexivity.
    - intros i t b [].
    - intros i p0 p E0 E. rewrite nth_error_map, E0 in E. cbn [option_map] in E. injection E as <-. split; reflexivity.
    - intros i j p q Hi _ A _. rewrite nth_error_map in Hi. destruct (nth_error ps i); [|discriminate]. cbn [option_map] in Hi. injection Hi as <-. destruct A.
    - intros _. split; [reflexivity|]. intros i p Hi A. rewrite nth_error_map in Hi. destruct (nth_error ps i); [|discriminate]. cbn [option_map] in Hi. injection Hi as <-. destruct A.
    - left. reflexivity.
  Qed.
  Lemma run_inv sched w log part : Inv w log part -> exists log' part', Inv (mp_run sched w) log' part'.
  Proof.
    revert w log part. induction sched as [|e sched IH]; intros w log part I; [exists log, part; exact I|].
    destruct (step_inv w log part e I) as (log' & part' & I'). apply (IH _ _ _ I').
  Qed.
End Inv.

(** *** the claims *)
(** whatever the schedule and whoever is killed: the terminal shows complete calls one after the other, then at most the beginning of one more;
    each process's texts appear in its order, none skipped and none twice *)
Theorem C79_calls_never_mixed : forall ps sched, exists log part,
  w_out (mp_run sched (start ps)) = concat (map snd log) ++ part /\
  (forall i t b, In (i, t, b) log -> exists p0, nth_error ps i = Some p0 /\ shown (fst p0) t b) /\
  (forall i p0, nth_error ps i = Some p0 -> exists rest, texts (snd p0) = printed_by i log ++ rest) /\
  (part = [] \/ exists i p0 t rest more, nth_error ps i = Some p0 /\ texts (snd p0) = printed_by i log ++ t :: rest /\ shown (fst p0) t (part ++ more)).
Proof.
  intros ps sched. destruct (run_inv ps sched _ _ _ (start_inv ps)) as (log & part & I). exists log, part.
  split; [apply I|]. split; [apply I|]. split; [|apply I].
  intros i p0 E0. assert (exists p, nth_error (w_procs (mp_run sched (start ps))) i = Some p) as (p & E).
  { destruct (nth_error (w_procs (mp_run sched (start ps))) i) as [p|] eqn:E; [eauto|]. exfalso. apply nth_error_None in E. rewrite (i_len _ _ _ _ I) in E.
    assert (i < length ps) by (apply nth_error_Some; congruence). lia. }
  pose proof (i_proc _ _ _ _ I i p0 p E0 E) as (_ & P). destruct (p_phase p).
  - eauto.
  - destruct P as (_ & _ & P). eauto.
  - destruct P as (_ & _ & t & _ & P). eauto.
  - destruct P as (_ & _ & P). eauto.
  - exact P.
Qed.
(** what a call shows is determined by its text, every text has exactly one way to be shown *)
Lemma lines_of_length t ls : lines_of t ls -> forall ls', lines_of t ls' -> ls = ls'.
Proof.
  assert (NB : forall l l' c d t t', one_line l -> one_line l' -> breaks c -> breaks d -> l ++ c :: t = l' ++ d :: t' -> l = l' /\ c = d /\ t = t').
  { induction l as [|x l IH]; intros [|y l'] c d u u' H H' Bc Bd E; cbn [app] in E.
    - injection E as -> ->. auto.
    - injection E as -> E. exfalso. apply (H' y); [left; reflexivity|exact Bc].
    - injection E as -> E. exfalso. apply (H d); [left; reflexivity|exact Bd].
    - injection E as -> E. destruct (IH l' c d u u') as (-> & -> & ->); auto; intros z Hz; [apply H|apply H']; right; assumption. }
  assert (NL : forall l l' c t, one_line l -> breaks c -> l = l' ++ c :: t -> False).
  { intros l l' c u H B ->. apply (H c); [apply in_app_iff; right; left; reflexivity|exact B]. }
  assert (B13 : breaks 13) by (unfold breaks; lia).
  induction 1 as [|l N O|l c t ls O B Nc H IH|l t ls O H IH]; intros ls' H'.
  - inversion H' as [|l' N' O' E1 E2|l' c' t' ls1 O' B' Nc' H1 E1 E2|l' t' ls1 O' H1 E1 E2]; subst; [reflexivity|contradiction| |].
    + apply (f_equal (@length _)) in E1. rewrite app_length in E1. cbn [length] in E1. lia.
    + apply (f_equal (@length _)) in E1. rewrite app_length in E1. cbn [length] in E1. lia.
  - inversion H' as [E1 E2|l' N' O' E1 E2|l' c' t' ls1 O' B' Nc' H1 E1 E2|l' t' ls1 O' H1 E1 E2]; subst.
    + contradiction.
    + reflexivity.
    + exfalso. eapply NL; [exact O|exact B'|reflexivity].
    + exfalso. eapply NL; [exact O|exact B13|reflexivity].
  - inversion H' as [E1 E2|l' N' O' E1 E2|l' c' t' ls1 O' B' Nc' H1 E1 E2|l' t' ls1 O' H1 E1 E2]; subst.
    + apply (f_equal (@length _)) in E1. rewrite app_length in E1. cbn [length] in E1. lia.
    + exfalso. eapply NL; [exact O'|exact B|reflexivity].
    + destruct (NB _ _ _ _ _ _ O' O B' B E1) as (-> & -> & ->). f_equal. apply IH, H1.
    + destruct (NB _ _ _ _ _ _ O' O B13 B E1) as (-> & <- & <-). exfalso. apply (Nc eq_refl t'). reflexivity.
  - inversion H' as [E1 E2|l' N' O' E1 E2|l' c' t' ls1 O' B' Nc' H1 E1 E2|l' t' ls1 O' H1 E1 E2]; subst.
    + apply (f_equal (@length _)) in E1. rewrite app_length in E1. cbn [length] in E1. lia.
    + exfalso. eapply NL; [exact O'|exact B13|reflexivity].
    + destruct (NB _ _ _ _ _ _ O' O B' B13 E1) as (-> & -> & ->). exfalso. apply (Nc' eq_refl t). reflexivity.
    + destruct (NB _ _ _ _ _ _ O' O B13 B13 E1) as (-> & _ & E). injection E as ->. f_equal. apply IH, H1.
Qed.
Theorem C79_one_way_to_show : forall pid t, exists b, shown pid t b /\ forall b', shown pid t b' -> b' = b.
Proof.
  intros pid t. exists (prepend_pid pid t ++ [10]). split; [apply block_shown|]. intros b' (ls & H & ->).
  destruct (block_shown pid t) as (ls' & H' & ->). rewrite (lines_of_length _ _ H _ H'). reflexivity.
Qed.
(** a text without any characters shows an empty line, without the process's mark *)
Theorem C79_empty_text_unmarked : forall pid b, shown pid [] b <-> b = [10].
Proof.
  intros pid b. split.
  - intros (ls & H & ->). rewrite (lines_of_length _ _ H [] no_lines). reflexivity.
  - intros ->. exists []. split; [constructor|reflexivity].
Qed.

(** *** an end of the work *)
Lemma put_id : forall ps i p, nth_error ps i = Some p -> put_proc ps i p = ps.
Proof.
  induction ps as [|x ps IH]; intros [|i] p H; try discriminate; cbn [nth_error] in H; unfold put_proc in *; cbn [firstn skipn app].
  - injection H as ->. reflexivity.
  - f_equal. apply IH, H.
Qed.
Definition cost (pid : nat) (c : call) : nat := match c with Txt t => 5 + length (prepend_pid pid t) | NotText => 2 end.
Definition weight (p : proc) : nat :=
  let rest := list_sum (map (cost (p_pid p)) (p_calls p)) in
  match p_phase p with
  | Dead => 0
  | Ready => 1 + rest
  | Acquired c => cost (p_pid p) c + rest
  | Writing b => 3 + length b + rest
  | Flushed => 2 + rest
  end.
Definition work (w : world) : nat := list_sum (map weight (w_procs w)).
Lemma work_put ps i p p' : nth_error ps i = Some p -> list_sum (map weight (put_proc ps i p')) + weight p = list_sum (map weight ps) + weight p'.
Proof.
  assert (C : forall n l, list_sum (n :: l) = n + list_sum l) by reflexivity.
  revert i. induction ps as [|x ps IH]; intros [|i] H; try discriminate; cbn [nth_error] in H.
  - injection H as ->. change (put_proc (p :: ps) 0 p') with (p' :: ps). cbn [map]. rewrite !C. lia.
  - specialize (IH i H). change (put_proc (x :: ps) (S i) p') with (x :: put_proc ps i p'). cbn [map]. rewrite !C. lia.
Qed.
(** every step either changes nothing or brings the work closer to its end *)
Lemma step_work w e : mp_step w e = w \/ work (mp_step w e) < work w.
Proof.
  assert (Id : forall i p, nth_error (w_procs w) i = Some p -> World (w_out w) (w_lock w) (put_proc (w_procs w) i p) = w).
  { intros i p H. rewrite (put_id _ _ _ H). destruct w; reflexivity. }
  assert (Lt : forall i p p' out lock, nth_error (w_procs w) i = Some p -> weight p' < weight p -> work (World out lock (put_proc (w_procs w) i p')) < work w).
  { intros i p p' out lock H L. unfold work. cbn [w_procs]. pose proof (work_put _ i p p' H). lia. }
  destruct e as [i k|i]; cbn [mp_step]; destruct (nth_error (w_procs w) i) as [p|] eqn:E; try (left; reflexivity).
  - specialize (Id i p E). specialize (Lt i p). unfold move. destruct p as [pid cs ph]. cbn [p_phase p_calls p_pid].
    destruct ph as [|[t|]|b| |].
    + destruct cs as [|c cs]; [left; exact Id|]. destruct (w_lock w) eqn:El; [left; exact Id|].
      right. apply Lt; [assumption|]. unfold weight. cbn [p_phase p_calls p_pid map].
      change (list_sum (cost pid c :: map (cost pid) cs)) with (cost pid c + list_sum (map (cost pid) cs)). destruct c; cbn [cost]; lia.
    + right. apply Lt; [assumption|]. unfold weight. cbn [p_phase p_calls p_pid cost]. rewrite app_length. cbn [length]. lia.
    + right. apply Lt; [assumption|]. unfold weight. cbn [p_phase p_calls p_pid cost]. lia.
    + destruct (skipn k b) as [|c r] eqn:Ek.
      * right. apply Lt; [assumption|]. unfold weight. cbn [p_phase p_calls p_pid length]. lia.
      * destruct k as [|k].
        -- left. cbn [skipn] in Ek. subst b. cbn [firstn]. rewrite app_nil_r. exact Id.
        -- right. apply Lt; [assumption|]. unfold weight. cbn [p_phase p_calls p_pid].
           assert (L : length (skipn (S k) b) = length (c :: r)) by congruence. rewrite skipn_length in L. cbn [length] in *. lia.
    + right. apply Lt; [assumption|]. unfold weight. cbn [p_phase p_calls p_pid]. lia.
    + left. exact Id.
  - specialize (Id i p E). specialize (Lt i p). destruct p as [pid cs ph]. cbn [p_pid p_calls]. destruct ph as [|[t|]|b| |]; try (right; apply Lt; [assumption|]; unfold weight; cbn [p_phase cost]; lia).
    left. exact Id.
Qed.
Theorem C79_no_endless_work : exists m : world -> nat, forall w e, mp_step w e = w \/ m (mp_step w e) < m w.
Proof. exists work. apply step_work. Qed.

(** nobody is killed *)
Definition nobody_killed (sched : list event) : Prop := forall e, In e sched -> exists i k, e = Run i k.
(** nothing but strings *)
Definition only_texts (ps : list (nat * list call)) : Prop := forall i p0 c, nth_error ps i = Some p0 -> In c (snd p0) -> c <> NotText.
Definition sound (w : world) : Prop :=
  (forall i p, nth_error (w_procs w) i = Some p -> p_phase p <> Dead /\ p_phase p <> Acquired NotText /\ forall c, In c (p_calls p) -> c <> NotText) /\
  (w_lock w = true -> exists i p, nth_error (w_procs w) i = Some p /\ active p).
Lemma step_sound w i k : sound w -> sound (mp_step w (Run i k)).
Proof.
  intros (S1 & S2). cbn [mp_step]. destruct (nth_error (w_procs w) i) as [p|] eqn:E; [|split; assumption].
  assert (Li : i < length (w_procs w)) by (apply nth_error_Some; congruence).
  destruct (S1 i p E) as (D & NT & C).
  assert (Put : forall p' lock' out', p_phase p' <> Dead /\ p_phase p' <> Acquired NotText /\ (forall c, In c (p_calls p') -> c <> NotText) ->
    (lock' = true -> exists j q, nth_error (put_proc (w_procs w) i p') j = Some q /\ active q) -> sound (World out' lock' (put_proc (w_procs w) i p'))).
  { intros p' lock' out' P L. split; [|exact L]. cbn [w_procs]. intros j q Hj. destruct (Nat.eq_dec j i) as [->|N].
    - rewrite put_same in Hj by assumption. injection Hj as <-. exact P.
    - rewrite put_other in Hj by assumption. apply (S1 j q Hj). }
  assert (Keep : forall out', sound (World out' (w_lock w) (put_proc (w_procs w) i p))).
  { intros out'. apply Put; [auto|]. intros L. rewrite (put_id _ _ _ E). apply S2, L. }
  assert (Act : forall p' lock' out', p_phase p' <> Dead /\ p_phase p' <> Acquired NotText /\ (forall c, In c (p_calls p') -> c <> NotText) -> active p' -> sound (World out' lock' (put_proc (w_procs w) i p'))).
  { intros p' lock' out' P A. apply Put; [exact P|]. intros _. exists i, p'. split; [apply put_same, Li|exact A]. }
  unfold move. destruct (p_phase p) as [|[t|]|b| |] eqn:Ph.
  - destruct (p_calls p) as [|c cs] eqn:Ec; [apply Keep|]. destruct (w_lock w) eqn:El; [apply Keep|].
    apply Act; [|exact Logic.I]. cbn [p_phase p_calls]. split; [discriminate|]. split; [|intros d Hd; apply C; right; exact Hd].
    intros Q. injection Q as ->. apply (C NotText); [left; reflexivity|reflexivity].
  - apply Act; [|exact Logic.I]. cbn [p_phase p_calls]. repeat split; try discriminate. exact C.
  - contradiction NT. reflexivity.
  - destruct (skipn k b); (apply Act; [|exact Logic.I]); cbn [p_phase p_calls]; repeat split; try discriminate; exact C.
  - apply Put; [|discriminate]. cbn [p_phase p_calls]. repeat split; try discriminate. exact C.
  - contradiction D. reflexivity.
Qed.
Lemma run_sound sched : forall w, sound w -> nobody_killed sched -> sound (mp_run sched w).
Proof.
  induction sched as [|e sched IH]; intros w S N; [exact S|]. cbn [mp_run fold_left]. apply IH; [|intros x Hx; apply N; right; exact Hx].
  destruct (N e) as (i & k & ->); [left; reflexivity|]. apply step_sound, S.
Qed.
Lemma start_sound ps : only_texts ps -> sound (start ps).
Proof.
  intros H. split; [|discriminate]. cbn [start w_procs]. intros i p E. rewrite nth_error_map in E. destruct (nth_error ps i) as [p0|] eqn:E0; [|discriminate].
  cbn [option_map] in E. injection E as <-. cbn [p_phase p_calls]. repeat split; try discriminate. intros c Hc. apply (H i p0 c); assumption.
Qed.
(** with strings only and nobody killed, when no process can go on everything has been printed: there is no deadlock.  As every step that changes
    something brings the end closer, every schedule that goes on as long as anybody can gets there *)
Theorem C79_everything_printed : forall ps sched, only_texts ps -> nobody_killed sched ->
  let w := mp_run sched (start ps) in
  (forall i k, mp_step w (Run i k) = w) ->
  exists log, w_out w = concat (map snd log) /\
    (forall i t b, In (i, t, b) log -> exists p0, nth_error ps i = Some p0 /\ shown (fst p0) t b) /\
    forall i p0, nth_error ps i = Some p0 -> printed_by i log = texts (snd p0).
Proof.
  intros ps sched Ht Hk w St. pose proof (run_sound sched _ (start_sound ps Ht) Hk) as (S1 & S2). fold w in S1, S2.
  destruct (run_inv ps sched _ _ _ (start_inv ps)) as (log & part & I). fold w in I.
  assert (Stuck : forall i p, nth_error (w_procs w) i = Some p -> forall k, move (w_lock w) (w_out w) k p = (w_lock w, w_out w, p)).
  { intros i p E k. specialize (St i k). cbn [mp_step] in St. rewrite E in St. assert (Li : i < length (w_procs w)) by (apply nth_error_Some; congruence).
    destruct (move (w_lock w) (w_out w) k p) as ((l & o) & p') eqn:Em. 
    assert (Q1 : w_lock w = l) by (rewrite <- St; reflexivity). assert (Q2 : w_out w = o) by (rewrite <- St; reflexivity).
    assert (Q3 : nth_error (w_procs w) i = Some p') by (rewrite <- St; cbn [w_procs]; apply put_same, Li). congruence. }
  assert (NA : forall i p, nth_error (w_procs w) i = Some p -> ~ active p).
  { intros i p E A. destruct (S1 i p E) as (D & NT & C). assert (M := Stuck i p E). unfold active in A. unfold move in M. destruct (p_phase p) as [|[t|]|b| |] eqn:Ph; try contradiction.
    - specialize (M 0). injection M as M. rewrite <- M in Ph. discriminate.
    - specialize (M (length b)). rewrite skipn_all in M. injection M as _ M. rewrite <- M in Ph. discriminate.
    - specialize (M 0). injection M as _ M. rewrite <- M in Ph. discriminate. }
  assert (Free : w_lock w = false).
  { destruct (w_lock w) eqn:El; [|reflexivity]. destruct (S2 eq_refl) as (i & p & E & A). destruct (NA i p E A). }
  destruct (i_free _ _ _ _ I Free) as (-> & _). exists log. split; [rewrite (i_out _ _ _ _ I); apply app_nil_r|]. split; [apply I|].
  intros i p0 E0. assert (exists p, nth_error (w_procs w) i = Some p) as (p & E).
  { destruct (nth_error (w_procs w) i) as [p|] eqn:E; [eauto|]. exfalso. apply nth_error_None in E. rewrite (i_len _ _ _ _ I) in E.
    assert (i < length ps) by (apply nth_error_Some; congruence). lia. }
  pose proof (i_proc _ _ _ _ I i p0 p E0 E) as (_ & P). destruct (S1 i p E) as (D & _). assert (M := Stuck i p E 0). unfold move in M. assert (A := NA i p E). unfold active in A.
  destruct (p_phase p) as [| | | |] eqn:Ph; try (contradiction A; exact Logic.I); [|contradiction D; reflexivity].
  destruct (p_calls p) as [|c cs] eqn:Ec; [rewrite P; cbn [texts flat_map]; rewrite app_nil_r; reflexivity|].
  rewrite Free in M. discriminate.
Qed.

(** *** a lock that nobody gives back *)
Definition orphaned (w : world) : Prop := w_lock w = true /\ forall i p, nth_error (w_procs w) i = Some p -> ~ active p.
Lemma orphan_step w e : orphaned w -> orphaned (mp_step w e) /\ w_out (mp_step w e) = w_out w.
Proof.
  intros (L & A). assert (Keep : forall i p p', nth_error (w_procs w) i = Some p -> ~ active p' -> orphaned (World (w_out w) true (put_proc (w_procs w) i p'))).
  { intros i p p' E N. split; [reflexivity|]. cbn [w_procs]. assert (Li : i < length (w_procs w)) by (apply nth_error_Some; congruence).
    intros j q Hj. destruct (Nat.eq_dec j i) as [->|Nj]; [rewrite put_same in Hj by assumption; congruence|].
    rewrite put_other in Hj by assumption. apply (A j q Hj). }
  destruct e as [i k|i]; cbn [mp_step]; destruct (nth_error (w_procs w) i) as [p|] eqn:E; try (split; [split; assumption|reflexivity]); rewrite L.
  - assert (Np := A i p E). unfold active in Np. unfold move. destruct (p_phase p) as [|[t|]|b| |] eqn:Ph; try (contradiction Np; exact Logic.I).
    + destruct (p_calls p); (split; [apply (Keep i p); assumption || apply (A i p E)|reflexivity]).
    + split; [apply (Keep i p); [assumption|apply (A i p E)]|reflexivity].
  - split; [apply (Keep i p); [assumption|intros []]|reflexivity].
Qed.
Lemma orphan_run sched : forall w, orphaned w -> w_out (mp_run sched w) = w_out w.
Proof.
  induction sched as [|e sched IH]; intros w O; [reflexivity|]. destruct (orphan_step w e O) as (O' & E). cbn [mp_run fold_left].
  change (fold_left mp_step sched (mp_step w e)) with (mp_run sched (mp_step w e)). rewrite IH by assumption. exact E.
Qed.
(** a process killed inside mpprint: nobody ever prints again *)
Theorem C79_killed_inside_blocks_all : forall ps sched i p sched', 
  let w := mp_run sched (start ps) in
  nth_error (w_procs w) i = Some p -> p_phase p <> Ready -> p_phase p <> Dead ->
  w_out (mp_run (Kill i :: sched') w) = w_out w.
Proof.
  intros ps sched i p sched' w E NR ND. destruct (run_inv ps sched _ _ _ (start_inv ps)) as (log & part & I). fold w in I.
  assert (Ap : active p) by (unfold active; destruct (p_phase p); try exact Logic.I; contradiction).
  assert (Li : i < length (w_procs w)) by (apply nth_error_Some; congruence).
  cbn [mp_run fold_left]. change (fold_left mp_step sched' (mp_step w (Kill i))) with (mp_run sched' (mp_step w (Kill i))).
  rewrite orphan_run; cbn [mp_step]; rewrite E; [reflexivity|]. split.
  - cbn [w_lock]. destruct (w_lock w) eqn:El; [reflexivity|]. destruct (i_free _ _ _ _ I El) as (_ & F). destruct (F i p E Ap).
  - cbn [w_procs]. intros j q Hj. destruct (Nat.eq_dec j i) as [->|N].
    + rewrite put_same in Hj by assumption. injection Hj as <-. intros [].
    + rewrite put_other in Hj by assumption. intros Aq. apply N. apply (i_one _ _ _ _ I j i q p); assumption.
Qed.
(** calling mpprint with something that is not a string raises with the lock taken: nobody ever prints again, not even the caller *)
Theorem C79_not_a_string_blocks_all : forall ps i pid cs a b sched, nth_error ps i = Some (pid, NotText :: cs) ->
  w_out (mp_run (Run i a :: Run i b :: sched) (start ps)) = [].
Proof.
  intros ps i pid cs a b sched E. set (w0 := start ps). set (p0 := Proc pid (NotText :: cs) Ready).
  assert (E0 : nth_error (w_procs w0) i = Some p0) by (unfold w0, start; cbn [w_procs]; rewrite nth_error_map, E; reflexivity).
  assert (Li : i < length (w_procs w0)) by (apply nth_error_Some; congruence).
  assert (E1 : mp_step w0 (Run i a) = World [] true (put_proc (w_procs w0) i (Proc pid cs (Acquired NotText)))) by (cbn [mp_step]; rewrite E0; reflexivity).
  set (w1 := World [] true (put_proc (w_procs w0) i (Proc pid cs (Acquired NotText)))) in *.
  assert (E2 : mp_step w1 (Run i b) = World [] true (put_proc (w_procs w1) i (Proc pid cs Ready))).
  { cbn [mp_step]. unfold w1 at 1. cbn [w_procs]. rewrite put_same by assumption. reflexivity. }
  change (mp_run (Run i a :: Run i b :: sched) w0) with (mp_run sched (mp_step (mp_step w0 (Run i a)) (Run i b))). rewrite E1, E2.
  assert (L1 : i < length (w_procs w1)) by (unfold w1; cbn [w_procs]; rewrite put_len by assumption; exact Li).
  rewrite orphan_run; [reflexivity|]. split; [reflexivity|]. cbn [w_procs]. intros j q Hj. destruct (Nat.eq_dec j i) as [->|N].
  - rewrite put_same in Hj by assumption. injection Hj as <-. intros [].
  - rewrite put_other in Hj by assumption. unfold w1 in Hj. cbn [w_procs] in Hj. rewrite put_other in Hj by assumption.
    unfold w0, start in Hj. cbn [w_procs] in Hj. rewrite nth_error_map in Hj. destruct (nth_error ps j); [|discriminate]. cbn [option_map] in Hj. injection Hj as <-. intros [].
Qed.

(** *** two processes, one printing two lines in pieces while the other waits *)
Theorem C79_example :
  let ps := [(7, [Txt [97; 10; 98]]); (12, [Txt [99]])] in
  let sched := [Run 0 0; Run 1 0; Run 0 0; Run 0 5; Run 1 9; Run 0 99; Run 1 9; Run 0 0; Run 1 0; Run 1 0; Run 1 99; Run 1 0] in
  only_texts ps /\ nobody_killed sched /\
  w_out (mp_run sched (start ps)) =
    [80; 55; 32; 32; 32; 32; 32; 32; 58; 124; 9; 97; 10;  80; 55; 32; 32; 32; 32; 32; 32; 58; 124; 9; 98; 10;  80; 49; 50; 32; 32; 32; 32; 32; 58; 124; 9; 99; 10] /\
  forall i k, mp_step (mp_run sched (start ps)) (Run i k) = mp_run sched (start ps).
Proof.
  cbv zeta. split; [|split; [|split]].
  - intros [|[|i]] p0 c E; [| |destruct i; discriminate]; injection E as <-; intros [<-|[]]; discriminate.
  - intros e H. cbn [In] in H. repeat (destruct H as [<-|H]; [eauto|]). destruct H.
  - vm_compute. reflexivity.
  - intros [|[|i]] k; [reflexivity|reflexivity|destruct i; reflexivity].
Qed.
Print Assumptions C79_calls_never_mixed.
Print Assumptions C79_everything_printed.
Print Assumptions C79_killed_inside_blocks_all.
