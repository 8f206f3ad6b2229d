(** C71: algorithm runs and the datapoints made from them. *)
From Coq Require Import String.
From Verif Require Import Base Matrix_Model Select_Model RunObj_Model.
Open Scope nat_scope.

Section C71.
  Variable show : nat -> string.
  Variable picklable : nat -> bool.
  Notation step := (step show picklable).
  Notation history := (history show picklable).

  (** ** Specification *)
  (** what can be seen in the i-th datapoint *)
  Definition seen (w : world) (i : nat) : option pickled := option_map (contents w) (nth_error (points w) i).
  (** a value in a datapoint stands for a value of the run: callables are kept, of everything else the text is kept *)
  Definition stands_for (v v' : value) : Prop :=
    match v with Callable _ _ => v' = v | Text t => v' = Text t | Other o => v' = Text (show o) end.
  Definition record_of (p q : params) : Prop := Forall2 (fun kv kv' => fst kv' = fst kv /\ stands_for (snd kv) (snd kv')) p q.
  (** the objects that exist refer to objects that exist *)
  Definition wf (w : world) : Prop :=
    Forall (fun r => ru_params r < length (dicts w) /\ ru_mb r < length (lists w)) (runs w) /\
    Forall (fun p => dp_params p < length (dicts w) /\ dp_mb p < length (lists w)) (points w).
  Definition empty_world : world := {| dicts := []; lists := []; runs := []; points := []; files := [] |}.
  (** actions in which the program itself names dictionary [d] / changes list [l] / writes file [f] *)
  Definition names_dict (d : nat) (a : op) : Prop :=
    match a with SetParam d' _ _ => d' = d | NewRun _ _ d' => d' = d | NewClassifierRun _ _ d' => d' = d | _ => False end.
  Definition changes_list (l : nat) (a : op) : Prop := match a with SetList l' _ => l' = l | _ => False end.
  Definition writes_file (f : string) (a : op) : Prop := match a with Save _ f' => f' = f | _ => False end.

  (** ** Lemmas *)
  Lemma put_length {A} i (x : A) l : length (put i x l) = length l.
  Proof.
    unfold put. rewrite app_length. destruct (skipn i l) as [|y r] eqn:E.
    - assert (H := firstn_skipn i l). rewrite E, app_nil_r in H. rewrite H. cbn. lia.
    - rewrite <- (firstn_skipn i l) at 2. rewrite E, app_length. reflexivity.
  Qed.
  Lemma put_same {A} i (x : A) l : i < length l -> nth_error (put i x l) i = Some x.
  Proof.
    intros H. unfold put. destruct (skipn i l) as [|y r] eqn:E.
    - assert (G := skipn_length i l). rewrite E in G. cbn in G. lia.
    - rewrite nth_error_app2 by (rewrite firstn_length; lia). rewrite firstn_length, Nat.min_l, Nat.sub_diag by lia. reflexivity.
  Qed.
  Lemma put_other {A} i j (x : A) l : j <> i -> nth_error (put i x l) j = nth_error l j.
  Proof.
    intros H. unfold put. destruct (skipn i l) as [|y r] eqn:E.
    - rewrite app_nil_r. assert (G := firstn_skipn i l). rewrite E, app_nil_r in G. rewrite G. reflexivity.
    - rewrite <- (firstn_skipn i l) at 2. rewrite E. assert (Hl : length (firstn i l) = i).
      { assert (G := skipn_length i l). rewrite E in G. cbn in G. rewrite firstn_length. lia. }
      destruct (Nat.lt_ge_cases j i).
      + rewrite !nth_error_app1 by lia. reflexivity.
      + rewrite !nth_error_app2 by lia. rewrite Hl. destruct (j - i) eqn:Ej; [lia|reflexivity].
  Qed.
  Lemma put_Forall {A} (P : A -> Prop) i x l : P x -> Forall P l -> Forall P (put i x l).
  Proof.
    intros Hx Hl. unfold put. apply Forall_app. split; [apply Forall_forall; intros y Hy; apply (proj1 (Forall_forall _ _) Hl); revert Hy; rewrite <- (firstn_skipn i l) at 2; intros; apply in_or_app; auto|].
    destruct (skipn i l) as [|y r] eqn:E; [constructor|]. constructor; [assumption|]. rewrite <- (firstn_skipn i l), E in Hl. apply Forall_app in Hl as (_ & Hl). inversion Hl. assumption.
  Qed.
  Lemma nth_Some {A} (l : list A) i : i < length l -> exists x, nth_error l i = Some x.
  Proof. intros H. destruct (nth_error l i) as [x|] eqn:E; [eauto|]. apply nth_error_None in E. lia. Qed.
  Lemma nth_lt {A} (l : list A) i x : nth_error l i = Some x -> i < length l.
  Proof. intros H. apply nth_error_Some. congruence. Qed.

  Lemma put_put {A} i (x y : A) l : put i x (put i y l) = put i x l.
  Proof.
    unfold put. destruct (skipn i l) as [|z q] eqn:E.
    - assert (Hl := firstn_skipn i l). rewrite E, app_nil_r in Hl. rewrite Hl, app_nil_r, E, Hl, app_nil_r. reflexivity.
    - assert (Hn : length (firstn i l) = i) by (assert (G := skipn_length i l); rewrite E in G; cbn in G; rewrite firstn_length; lia).
      rewrite firstn_app, Hn, Nat.sub_diag, firstn_O, app_nil_r, firstn_firstn, Nat.min_id.
      rewrite skipn_app, Hn, Nat.sub_diag, skipn_all2 by lia. reflexivity.
  Qed.

  (** everything [run_object] may change *)
  Lemma run_object_shape i t0 t1 w : exists d p' r' more,
    let w' := fst (run_object i t0 t1 w) in
    (dicts w' = dicts w \/ (dicts w' = put d p' (dicts w) /\ exists r, nth_error (runs w) i = Some r /\ ru_params r = d)) /\
    lists w' = lists w ++ more /\ points w' = points w /\ files w' = files w /\
    (runs w' = runs w \/ (runs w' = put i r' (runs w) /\ exists r, nth_error (runs w) i = Some r /\ ru_params r' = ru_params r /\ (ru_mb r' = ru_mb r \/ ru_mb r' < length (lists w')))).
  Proof.
    unfold run_object. destruct (nth_error (runs w) i) as [r|] eqn:Er.
    2: { cbn [fst]. exists 0, [], {| ru_exds := None; ru_params := 0; ru_ID := Other 0; ru_algorithm := (EmptyString, fun _ p => (p, Ok [])); ru_mb := 0; ru_start := 0; ru_end := 0; ru_duration := 0; ru_classifier := None; ru_evaluation := None |}, []. rewrite app_nil_r. repeat split; auto. }
    destruct (nth_error (dicts w) (ru_params r)) as [p|] eqn:Ep.
    2: { cbn [fst]. exists 0, [], r, []. rewrite app_nil_r. repeat split; auto. }
    unfold run_plain. destruct (snd (ru_algorithm r) _ p) as (p' & o).
    destruct o as [mb|e].
    2: { cbn [fst set_dict set_run dicts lists runs points files]. eexists (ru_params r), p', _, []. rewrite app_nil_r.
         split; [right; split; [reflexivity|eauto]|]. repeat split. right. split; [reflexivity|]. exists r. cbn. auto. }
    cbn [ru_classifier]. destruct (ru_classifier r) as [(name, ev)|] eqn:Ec.
    - destruct (_ : res evaluation) as [v|e]; cbn [fst set_dict set_run new_list dicts lists runs points files]; eexists (ru_params r), p', _, [mb];
        (split; [right; split; [reflexivity|eauto]|]; repeat split; right; rewrite ?put_put; split; [reflexivity|]; exists r; cbn; rewrite app_length; cbn; repeat split; right; lia).
    - cbn [fst set_dict set_run new_list dicts lists runs points files]. eexists (ru_params r), p', _, [mb].
      split; [right; split; [reflexivity|eauto]|]. repeat split. right. rewrite ?put_put. split; [reflexivity|]. exists r. cbn. rewrite app_length. cbn. repeat split. right. lia.
  Qed.

  Lemma make_run_inv x c d cl w w' : make_run x c d cl w = Ok w' -> exists p id a,
    nth_error (dicts w) d = Some p /\ assoc String.eqb "ID"%string p = Some id /\ cf_algorithm c = Some a /\
    w' = add_run {| ru_exds := x; ru_params := d; ru_ID := id; ru_algorithm := a; ru_mb := length (lists w);
                    ru_start := 0; ru_end := 0; ru_duration := 0; ru_classifier := cl; ru_evaluation := None |} (new_list [] w).
  Proof.
    unfold make_run. destruct (nth_error (dicts w) d) as [p|]; [|discriminate]. cbn [of_option bind].
    destruct (assoc _ _ p) as [id|] eqn:Ei; [|discriminate]. cbn [of_option bind]. destruct (cf_algorithm c) as [a|]; [|discriminate]. cbn [of_option bind].
    intros E. injection E as <-. exists p, id, a. auto.
  Qed.
  (** the cases of a step *)
  Lemma step_cases w a : let w' := fst (step w a) in
    w' = w \/
    (exists p, w' = new_dict p w) \/
    (exists r d, w' = add_run r (new_list [] w) /\ ru_params r = d /\ names_dict d a /\ d < length (dicts w) /\ ru_mb r = length (lists w)) \/
    (exists i t0 t1, w' = fst (run_object i t0 t1 w)) \/
    (exists p r q, w' = add_point p (new_dict q w) /\ dp_params p = length (dicts w) /\ In r (runs w) /\ dp_mb p = ru_mb r) \/
    (exists d k v p, a = SetParam d k v /\ nth_error (dicts w) d = Some p /\ w' = set_dict d (assoc_set String.eqb k v p) w) \/
    (exists l xs, a = SetList l xs /\ w' = set_list l xs w) \/
    (exists i f c, a = Save i f /\ w' = set_file f c w) \/
    (exists p q xs, w' = add_point p (new_list xs (new_dict q w)) /\ dp_params p = length (dicts w) /\ dp_mb p = length (lists w)).
  Proof.
    destruct a as [p|x c d|x c d|i t0 t1|i|i|d k v|l xs|i f|f]; cbn [RunObj_Model.step].
    - right. left. exists p. reflexivity.
    - destruct (make_run x c d None w) as [w'|e] eqn:E; [|left; reflexivity]. apply make_run_inv in E as (p & id & a & Ep & _ & _ & ->).
      do 2 right. left. do 2 eexists. split; [reflexivity|]. cbn. split; [reflexivity|]. split; [reflexivity|]. split; [eapply nth_lt; eassumption|reflexivity].
    - destruct (make_run x c d (cf_classifier c) w) as [w'|e] eqn:E; cbn [bind]; [|left; reflexivity]. destruct (cf_classifier c) as [cl|]; cbn [of_option bind]; [|left; reflexivity].
      apply make_run_inv in E as (p & id & a & Ep & _ & _ & ->).
      do 2 right. left. do 2 eexists. split; [reflexivity|]. cbn. split; [reflexivity|]. split; [reflexivity|]. split; [eapply nth_lt; eassumption|reflexivity].
    - do 3 right. left. eauto.
    - destruct (nth_error (runs w) i) as [r|] eqn:Er; cbn [of_option bind]; [|left; reflexivity]. destruct (nth_error (dicts w) (ru_params r)) as [p|] eqn:Ep; cbn [of_option bind]; [|left; reflexivity].
      do 4 right. left. do 3 eexists. split; [reflexivity|]. cbn. split; [reflexivity|]. split; [eapply nth_error_In; eassumption|reflexivity].
    - destruct (nth_error (runs w) i) as [r|] eqn:Er; cbn [of_option bind]; [|left; reflexivity]. destruct (nth_error (dicts w) (ru_params r)) as [p|] eqn:Ep; cbn [of_option bind]; [|left; reflexivity].
      destruct (ru_classifier r) as [cl|]; cbn [of_option bind]; [|left; reflexivity].
      do 4 right. left. do 3 eexists. split; [reflexivity|]. cbn. split; [reflexivity|]. split; [eapply nth_error_In; eassumption|reflexivity].
    - destruct (nth_error (dicts w) d) as [p|] eqn:Ep; [|left; reflexivity]. do 5 right. left. exists d, k, v, p. auto.
    - destruct (nth_error (lists w) l); [|left; reflexivity]. do 6 right. left. exists l, xs. auto.
    - destruct (nth_error (points w) i) as [p|]; [|left; reflexivity]. do 7 right. left. destruct (can_pickle _ _); do 3 eexists; split; reflexivity.
    - destruct (assoc _ f (files w)) as [[|c]|]; [left; reflexivity| |left; reflexivity]. do 8 right. do 3 eexists. split; [reflexivity|]. cbn. auto.
  Qed.
  Ltac cases_of w a :=
    destruct (step_cases w a) as [E | [(q & E) | [(r & d0 & E & Ed & Hn & Hd & Hm) | [(i & t0 & t1 & E) | [(pt & r & q & E & Ed & Hr & Hm) | [(d0 & k & v & p0 & Ea & Ep & E) | [(l0 & ys & Ea & E) | [(i & f0 & c & Ea & E) | (pt & q & ys & E & Ed & Hm)]]]]]]]]; rewrite E.
  Definition grows (w w' : world) : Prop := length (dicts w) <= length (dicts w') /\ length (lists w) <= length (lists w').
  Lemma step_grows w a : grows w (fst (step w a)).
  Proof.
    cases_of w a; unfold grows; cbn; rewrite ?app_length, ?put_length; try lia.
    destruct (run_object_shape i t0 t1 w) as (d & p' & r' & more & Hd & Hl & _). cbn in Hd, Hl. rewrite Hl, app_length. destruct Hd as [-> | (-> & _)]; rewrite ?put_length; lia.
  Qed.
  Lemma wf_grows w w' : grows w w' -> runs w' = runs w -> points w' = points w -> wf w -> wf w'.
  Proof. intros (G1 & G2) E1 E2 (H1 & H2). unfold wf. rewrite E1, E2. split; [apply (Forall_impl _ (fun r H => conj (Nat.lt_le_trans _ _ _ (proj1 H) G1) (Nat.lt_le_trans _ _ _ (proj2 H) G2)) H1)|apply (Forall_impl _ (fun r H => conj (Nat.lt_le_trans _ _ _ (proj1 H) G1) (Nat.lt_le_trans _ _ _ (proj2 H) G2)) H2)]. Qed.
  Lemma step_wf w a : wf w -> wf (fst (step w a)).
  Proof.
    intros W. assert (G := step_grows w a). cases_of w a; try assumption; rewrite E in G.
    - revert W. apply wf_grows; [exact G|reflexivity|reflexivity].
    - assert (W1 : wf (new_list [] w)) by (revert W; apply wf_grows; [split; cbn; rewrite ?app_length; lia|reflexivity|reflexivity]). destruct W1 as (W1 & W2). split; cbn in *; [|exact W2].
      apply Forall_app. split; [exact W1|]. constructor; [|constructor]. rewrite app_length. cbn. split; lia.
    - destruct (run_object_shape i t0 t1 w) as (d & p' & r' & more & Hd & Hl & Hp & _ & Hr). cbn in *. destruct W as (W1 & W2).
      assert (Ld : length (dicts (fst (run_object i t0 t1 w))) = length (dicts w)) by (destruct Hd as [-> | (-> & _)]; rewrite ?put_length; reflexivity).
      assert (Ll : length (lists w) <= length (lists (fst (run_object i t0 t1 w)))) by (rewrite Hl, app_length; lia).
      assert (W1' : Forall (fun r => ru_params r < length (dicts (fst (run_object i t0 t1 w))) /\ ru_mb r < length (lists (fst (run_object i t0 t1 w)))) (runs w)).
      { revert W1. apply Forall_impl. intros r (A & B). rewrite Ld. split; lia. }
      split.
      + destruct Hr as [-> | (-> & r & Er & E1 & E2)]; [assumption|]. apply put_Forall; [|assumption]. rewrite Ld. rewrite Forall_forall in W1. specialize (W1 _ (nth_error_In _ _ Er)). split; [rewrite E1; lia|]. destruct E2 as [-> | E2]; lia.
      + rewrite Hp. revert W2. apply Forall_impl. intros r (A & B). rewrite Ld. split; lia.
    - assert (W1 : wf (new_dict q w)) by (revert W; apply wf_grows; [split; cbn; rewrite ?app_length; lia|reflexivity|reflexivity]). destruct W1 as (W1 & W2). split; cbn in *; [exact W1|].
      apply Forall_app. split; [exact W2|]. constructor; [|constructor]. rewrite app_length. cbn. destruct W as (W & _). rewrite Forall_forall in W. specialize (W _ Hr). lia.
    - revert W. apply wf_grows; [exact G|reflexivity|reflexivity].
    - revert W. apply wf_grows; [exact G|reflexivity|reflexivity].
    - assert (W1 : wf (new_list ys (new_dict q w))) by (revert W; apply wf_grows; [split; cbn; rewrite ?app_length; lia|reflexivity|reflexivity]). destruct W1 as (W1 & W2). split; cbn in *; [exact W1|].
      apply Forall_app. split; [exact W2|]. constructor; [|constructor]. rewrite !app_length. cbn. lia.
  Qed.
  Lemma history_wf ops : forall w, wf w -> wf (history w ops).
  Proof. induction ops as [|a ops IH]; intros w W; [exact W|]. apply IH, step_wf, W. Qed.
  Lemma step_points w a : exists more, points (fst (step w a)) = points w ++ more.
  Proof.
    cases_of w a; cbn; try (exists []; rewrite app_nil_r; reflexivity); try (eexists; reflexivity).
    destruct (run_object_shape i t0 t1 w) as (d & p' & r' & more & _ & _ & Hp & _). cbn in Hp. rewrite Hp. exists []. rewrite app_nil_r. reflexivity.
  Qed.
  Lemma history_points ops : forall w, exists more, points (history w ops) = points w ++ more.
  Proof.
    induction ops as [|a ops IH]; intros w; [exists []; rewrite app_nil_r; reflexivity|]. destruct (step_points w a) as (m1 & E1). destruct (IH (fst (step w a))) as (m2 & E2).
    exists (m1 ++ m2). change (history w (a :: ops)) with (history (fst (step w a)) ops). rewrite E2, E1, app_assoc. reflexivity.
  Qed.
  Lemma step_dict w a d p : nth_error (dicts w) d = Some p -> (forall r, In r (runs w) -> ru_params r <> d) -> ~ names_dict d a ->
    nth_error (dicts (fst (step w a))) d = Some p /\ forall r, In r (runs (fst (step w a))) -> ru_params r <> d.
  Proof.
    intros Hp Hrs Ha. assert (Hlt := nth_lt _ _ _ Hp). cases_of w a; cbn; try (split; [|assumption]); try (rewrite nth_error_app1 by assumption); try assumption.
    - split; [assumption|]. intros r0 [H | [<- | []]] % in_app_or; [apply Hrs, H|]. rewrite Ed. intros ->. contradiction.
    - destruct (run_object_shape i t0 t1 w) as (d1 & p' & r' & more & Hd & _ & _ & _ & Hr'). cbn in *. split.
      + destruct Hd as [-> | (-> & r & Er & <-)]; [assumption|]. rewrite put_other; [assumption|]. intros ->. apply (Hrs r); [eapply nth_error_In; eassumption|reflexivity].
      + destruct Hr' as [-> | (-> & r & Er & E1 & _)]; [assumption|]. assert (H : Forall (fun r => ru_params r <> d) (put i r' (runs w))).
        { apply put_Forall; [rewrite E1; apply Hrs; eapply nth_error_In; eassumption|apply Forall_forall, Hrs]. } rewrite Forall_forall in H. exact H.
    - rewrite put_other; [assumption|]. intros ->. apply Ha. rewrite Ea. reflexivity.
  Qed.
  Lemma history_dict ops : forall w d p, nth_error (dicts w) d = Some p -> (forall r, In r (runs w) -> ru_params r <> d) -> (forall a, In a ops -> ~ names_dict d a) ->
    nth_error (dicts (history w ops)) d = Some p.
  Proof.
    induction ops as [|a ops IH]; intros w d p Hp Hr Ha; [exact Hp|]. destruct (step_dict w a d p Hp Hr) as (H1 & H2); [apply Ha; left; reflexivity|].
    apply (IH (fst (step w a))); [assumption|assumption|]. intros b Hb. apply Ha. right. assumption.
  Qed.
  Lemma step_list w a l xs : nth_error (lists w) l = Some xs -> ~ changes_list l a -> nth_error (lists (fst (step w a))) l = Some xs.
  Proof.
    intros Hx Ha. assert (Hlt := nth_lt _ _ _ Hx). cases_of w a; cbn; try (rewrite nth_error_app1 by assumption); try assumption.
    - destruct (run_object_shape i t0 t1 w) as (d1 & p' & r' & more & _ & Hl & _). cbn in Hl. rewrite Hl, nth_error_app1; assumption.
    - rewrite put_other; [assumption|]. intros ->. apply Ha. rewrite Ea. reflexivity.
  Qed.
  Lemma history_list ops : forall w l xs, nth_error (lists w) l = Some xs -> (forall a, In a ops -> ~ changes_list l a) -> nth_error (lists (history w ops)) l = Some xs.
  Proof.
    induction ops as [|a ops IH]; intros w l xs Hx Ha; [exact Hx|]. apply (IH (fst (step w a))); [apply step_list; [assumption|apply Ha; left; reflexivity]|]. intros b Hb. apply Ha. right. assumption.
  Qed.
  Lemma assoc_set_other {V} f g (c : V) d : g <> f -> assoc String.eqb g (assoc_set String.eqb f c d) = assoc String.eqb g d.
  Proof.
    intros H. induction d as [|(k, v) d IH]; cbn [assoc assoc_set].
    - destruct (String.eqb_spec g f); [contradiction|reflexivity].
    - destruct (String.eqb_spec f k) as [-> | Hk]; cbn [assoc]; [destruct (String.eqb_spec g k); [contradiction|reflexivity]|]. rewrite IH. reflexivity.
  Qed.
  Lemma assoc_set_same {V} f (c : V) d : assoc String.eqb f (assoc_set String.eqb f c d) = Some c.
  Proof.
    induction d as [|(k, v) d IH]; cbn [assoc assoc_set]; [rewrite String.eqb_refl; reflexivity|]. destruct (String.eqb_spec f k) as [-> | Hk]; cbn [assoc]; [rewrite String.eqb_refl; reflexivity|].
    destruct (String.eqb_spec f k); [contradiction|assumption].
  Qed.
  Lemma step_file w a f : ~ writes_file f a -> assoc String.eqb f (files (fst (step w a))) = assoc String.eqb f (files w).
  Proof.
    intros Ha. cases_of w a; cbn; try reflexivity.
    - destruct (run_object_shape i t0 t1 w) as (d1 & p' & r' & more & _ & _ & _ & Hf & _). cbn in Hf. rewrite Hf. reflexivity.
    - apply assoc_set_other. intros ->. apply Ha. rewrite Ea. reflexivity.
  Qed.
  Lemma history_file ops : forall w f, (forall a, In a ops -> ~ writes_file f a) -> assoc String.eqb f (files (history w ops)) = assoc String.eqb f (files w).
  Proof.
    induction ops as [|a ops IH]; intros w f Ha; [reflexivity|]. change (history w (a :: ops)) with (history (fst (step w a)) ops). rewrite IH; [|intros b Hb; apply Ha; right; assumption].
    apply step_file, Ha. left. reflexivity.
  Qed.

  (** ** Making a datapoint *)
  Lemma record_rendered p : record_of p (pickleable_parameters show p).
  Proof. unfold record_of, pickleable_parameters. induction p as [|(k, v) p IH]; cbn [map]; constructor; [|assumption]. cbn. split; [reflexivity|]. destruct v; reflexivity. Qed.
  Lemma record_unique p q q' : record_of p q -> record_of p q' -> q = q'.
  Proof.
    intros H. revert q'. induction H as [|(k, v) (k1, v1) p q (H1 & H2) H IH]; intros q' H'; inversion H' as [|? (k2, v2) ? q2 (H3 & H4) H5]; subst; [reflexivity|]. cbn in *. subst. f_equal; [|apply IH; assumption].
    f_equal. destruct v; cbn in *; congruence.
  Qed.
  (** A datapoint is a new object with a new dictionary: the keys of the run's parameters in their order,
      callables as they are and of every other value its text; it has the run's ID, algorithm, times
      and Markov boundary; nothing that existed before changes. *)
  Theorem C71_datapoint_records_the_run : forall w i r p,
    nth_error (runs w) i = Some r -> nth_error (dicts w) (ru_params r) = Some p ->
    exists q dp, step w (MakePoint i) =
        ({| dicts := dicts w ++ [q]; lists := lists w; runs := runs w; points := points w ++ [dp]; files := files w |}, Ok tt) /\
      record_of p q /\ dp_params dp = length (dicts w) /\ dp_ID dp = ru_ID r /\ dp_name dp = fst (ru_algorithm r) /\ dp_mb dp = ru_mb r /\
      dp_start dp = ru_start r /\ dp_end dp = ru_end r /\ dp_duration dp = ru_duration r /\ dp_classifier dp = None.
  Proof.
    intros w i r p Hr Hp. cbn [RunObj_Model.step]. rewrite Hr. cbn [of_option bind]. rewrite Hp. cbn [of_option bind]. do 2 eexists. split; [reflexivity|]. split; [apply record_rendered|]. cbn. repeat split.
  Qed.
  (** The classifier's datapoint has the classifier's name and evaluation besides; a run without a
      classifier does not give one. *)
  Theorem C71_classifier_datapoint : forall w i r p,
    nth_error (runs w) i = Some r -> nth_error (dicts w) (ru_params r) = Some p ->
    match ru_classifier r with
    | None => step w (MakeClassifierPoint i) = (w, Err AttributeError)
    | Some c => exists q dp, step w (MakeClassifierPoint i) =
        ({| dicts := dicts w ++ [q]; lists := lists w; runs := runs w; points := points w ++ [dp]; files := files w |}, Ok tt) /\
      record_of p q /\ dp_params dp = length (dicts w) /\ dp_ID dp = ru_ID r /\ dp_name dp = fst (ru_algorithm r) /\ dp_mb dp = ru_mb r /\
      dp_start dp = ru_start r /\ dp_end dp = ru_end r /\ dp_duration dp = ru_duration r /\ dp_classifier dp = Some (fst c, ru_evaluation r)
    end.
  Proof.
    intros w i r p Hr Hp. cbn [RunObj_Model.step]. rewrite Hr. cbn [of_option bind]. rewrite Hp. cbn [of_option bind]. destruct (ru_classifier r) as [c|]; [|reflexivity]. cbn [of_option bind].
    do 2 eexists. split; [reflexivity|]. split; [apply record_rendered|]. cbn. repeat split.
  Qed.
  (** From then on its parameters stay what they are, whatever happens to the run, to its dictionary and
      to everything else, unless the program itself takes the datapoint's own dictionary; its Markov
      boundary stays unless that very list is changed in place. *)
  Theorem C71_datapoint_is_a_snapshot : forall w i w1, wf w -> step w (MakePoint i) = (w1, Ok tt) ->
    forall ops, (forall a, In a ops -> ~ names_dict (length (dicts w)) a) ->
      (forall r a, nth_error (runs w) i = Some r -> In a ops -> ~ changes_list (ru_mb r) a) ->
      seen (history w1 ops) (length (points w)) = seen w1 (length (points w)).
  Proof.
    intros w i w1 W E ops H1 H2. cbn [RunObj_Model.step] in E. destruct (nth_error (runs w) i) as [r|] eqn:Er; cbn [of_option bind] in E; [|discriminate].
    destruct (nth_error (dicts w) (ru_params r)) as [p|] eqn:Ep; cbn [of_option bind] in E; [|discriminate]. injection E as <-.
    assert (W1 := W). destruct W1 as (W1 & _). rewrite Forall_forall in W1. set (w1 := make_point show r p None w).
    destruct (W1 _ (nth_error_In _ _ Er)) as (_ & Hmb). destruct (nth_Some _ _ Hmb) as (mb & Em).
    destruct (history_points ops w1) as (more & Epts).
    assert (Ed : nth_error (dicts (history w1 ops)) (length (dicts w)) = Some (pickleable_parameters show p)).
    { apply history_dict; [cbn; rewrite nth_error_app2, Nat.sub_diag by lia; reflexivity| |assumption]. intros r' Hr'. cbn in Hr'. specialize (W1 _ Hr'). lia. }
    assert (El : nth_error (lists (history w1 ops)) (ru_mb r) = Some mb) by (apply history_list; [exact Em|]; intros a Ha; apply (H2 r); auto).
    assert (En : exists dp, nth_error (points w1) (length (points w)) = Some dp /\ dp_params dp = length (dicts w) /\ dp_mb dp = ru_mb r).
    { eexists. split; [unfold w1, make_point, add_point, new_dict; cbn [points]; rewrite nth_error_app2, Nat.sub_diag by lia; reflexivity|]. split; reflexivity. }
    destruct En as (dp & En & D1 & D2). unfold seen. rewrite Epts. rewrite nth_error_app1 by (eapply nth_lt; eassumption). rewrite En. cbn [option_map].
    unfold contents. rewrite D1, D2. rewrite (nth_error_nth _ _ _ Ed), (nth_error_nth _ _ _ El).
    rewrite (nth_error_nth (lists w1) (ru_mb r) [] (x:=mb) Em). rewrite (nth_error_nth (dicts w1) (length (dicts w)) [] (x:=pickleable_parameters show p)); [reflexivity|].
    unfold w1, make_point, add_point, new_dict. cbn [dicts]. rewrite nth_error_app2, Nat.sub_diag by lia. reflexivity.
  Qed.
  (** The list is shared, though: changing it in place changes the datapoint (and the run) ... *)
  Theorem C71_boundary_is_shared_refuted : forall w i r w1 xs, wf w -> nth_error (runs w) i = Some r -> step w (MakePoint i) = (w1, Ok tt) ->
    option_map pk_mb (seen (fst (step w1 (SetList (ru_mb r) xs))) (length (points w))) = Some xs.
  Proof.
    intros w i r w1 xs W Er E. cbn [RunObj_Model.step] in E. rewrite Er in E. cbn [of_option bind] in E. destruct (nth_error (dicts w) (ru_params r)) as [p|] eqn:Ep; cbn [of_option bind] in E; [|discriminate]. injection E as <-.
    destruct W as (W1 & _). rewrite Forall_forall in W1. destruct (W1 _ (nth_error_In _ _ Er)) as (_ & Hmb). destruct (nth_Some _ _ Hmb) as (mb & Em).
    cbn [RunObj_Model.step]. unfold make_point at 1. cbn [add_point new_dict lists]. rewrite Em. cbn [fst]. unfold seen. unfold set_list, make_point, add_point, new_dict. cbn [points]. rewrite nth_error_app2, Nat.sub_diag by lia. cbn [nth_error option_map contents pk_mb dp_mb lists].
    f_equal. apply nth_error_nth. apply put_same. assumption.
  Qed.
  (** ... while running the object again gives the run a list of its own and leaves the datapoint. *)
  Theorem C71_running_again_keeps_the_datapoint : forall w i w1 ops, wf w -> step w (MakePoint i) = (w1, Ok tt) ->
    (forall a, In a ops -> exists j t0 t1, a = Run j t0 t1) ->
    seen (history w1 ops) (length (points w)) = seen w1 (length (points w)).
  Proof.
    intros w i w1 ops W E H. apply (C71_datapoint_is_a_snapshot w i); auto; [intros a Ha|intros r a _ Ha]; destruct (H a Ha) as (j & t0 & t1 & ->); intros [].
  Qed.
  (** Recording what is already a record changes nothing. *)
  Theorem C71_recording_twice : forall p q q', record_of p q -> record_of q q' -> q' = q.
  Proof.
    intros p q q' H H'. apply (record_unique q); [assumption|]. clear H'. induction H as [|(k, v) (k1, v1) p q (H1 & H2) H IH]; [constructor|]. constructor; [|exact IH]. cbn in *. split; [reflexivity|]. destruct v; cbn in H2; subst; exact eq_refl.
  Qed.

  (** ** Running *)
  (** A run hands the algorithm the whole dataset of the experimental dataset (nothing if there is none)
      and the dictionary itself.  If the algorithm returns, the run has its result, in a new list, and
      the two times; if it raises, the run keeps its earlier boundary (none for a new run), end time,
      duration and evaluation, and the dictionary is what the algorithm left. *)
  Theorem C71_running : forall w i r p t0 t1 p' o, wf w ->
    nth_error (runs w) i = Some r -> nth_error (dicts w) (ru_params r) = Some p -> ru_classifier r = None ->
    snd (ru_algorithm r) (option_map ex_matrix (ru_exds r)) p = (p', o) ->
    let w' := fst (step w (Run i t0 t1)) in
    nth_error (dicts w') (ru_params r) = Some p' /\
    exists r', nth_error (runs w') i = Some r' /\ ru_params r' = ru_params r /\ ru_ID r' = ru_ID r /\ ru_algorithm r' = ru_algorithm r /\ ru_start r' = t0 /\
      match o with
      | Ok mb => snd (step w (Run i t0 t1)) = Ok tt /\ ru_mb r' = length (lists w) /\ nth_error (lists w') (ru_mb r') = Some mb /\
                 ru_end r' = t1 /\ ru_duration r' = (t1 - t0)%Z
      | Err e => snd (step w (Run i t0 t1)) = Err e /\ lists w' = lists w /\ ru_mb r' = ru_mb r /\
                 ru_end r' = ru_end r /\ ru_duration r' = ru_duration r /\ ru_evaluation r' = ru_evaluation r
      end.
  Proof.
    intros w i r p t0 t1 p' o W Er Ep Ec Ea. cbn [RunObj_Model.step]. unfold run_object. rewrite Er, Ep. unfold run_plain. rewrite Ea.
    assert (Hi := nth_lt _ _ _ Er). assert (Hd := nth_lt _ _ _ Ep). destruct o as [mb|e].
    - cbn [ru_classifier]. rewrite Ec. cbn [fst snd]. split; [cbn; apply put_same; assumption|]. eexists. cbn [set_run runs lists new_list set_dict]. split; [apply put_same; rewrite put_length; assumption|].
      cbn. repeat split. rewrite nth_error_app2, Nat.sub_diag by lia. reflexivity.
    - cbn [fst snd]. split; [cbn; apply put_same; assumption|]. eexists. cbn [set_run runs lists new_list set_dict]. split; [apply put_same; assumption|]. cbn. repeat split.
  Qed.
  (** The run's own boundary does not depend on how the dataset is split: the algorithm learns from all
      rows, the rows used for evaluating the classifier included. *)
  Theorem C71_learns_from_all_rows : forall w w' i j r r' p t0 t1, wf w -> wf w' ->
    nth_error (runs w) i = Some r -> nth_error (runs w') j = Some r' -> nth_error (dicts w) (ru_params r) = Some p -> nth_error (dicts w') (ru_params r') = Some p ->
    ru_classifier r = None -> ru_classifier r' = None -> ru_algorithm r = ru_algorithm r' ->
    option_map ex_matrix (ru_exds r) = option_map ex_matrix (ru_exds r') ->
    snd (step w (Run i t0 t1)) = snd (step w' (Run j t0 t1)) /\
    (snd (step w (Run i t0 t1)) = Ok tt ->
     exists s s' mb, nth_error (runs (fst (step w (Run i t0 t1)))) i = Some s /\ nth_error (runs (fst (step w' (Run j t0 t1)))) j = Some s' /\
       nth_error (lists (fst (step w (Run i t0 t1)))) (ru_mb s) = Some mb /\ nth_error (lists (fst (step w' (Run j t0 t1)))) (ru_mb s') = Some mb).
  Proof.
    intros w w' i j r r' p t0 t1 W W' Er Er' Ep Ep' Ec Ec' Ea Ex. destruct (snd (ru_algorithm r) (option_map ex_matrix (ru_exds r)) p) as (q & o) eqn:E.
    assert (E' := E). rewrite Ea, Ex in E'.
    destruct (C71_running w i r p t0 t1 q o W Er Ep Ec E) as (_ & s & S1 & _ & _ & _ & _ & S2).
    destruct (C71_running w' j r' p t0 t1 q o W' Er' Ep' Ec' E') as (_ & s' & S1' & _ & _ & _ & _ & S2').
    destruct o as [mb|e].
    - destruct S2 as (A1 & _ & A2 & _), S2' as (B1 & _ & B2 & _). rewrite A1, B1. split; [reflexivity|]. intros _. exists s, s', mb. auto.
    - destruct S2 as (A1 & _), S2' as (B1 & _). rewrite A1, B1. split; [reflexivity|discriminate].
  Qed.
  (** A run with a classifier finds its boundary first.  Without a split dataset (or without a dataset) the
      evaluation then raises AttributeError: the boundary and the duration are kept. *)
  Theorem C71_classifier_needs_a_split : forall w i r p t0 t1 p' mb c, wf w ->
    nth_error (runs w) i = Some r -> nth_error (dicts w) (ru_params r) = Some p -> ru_classifier r = Some c ->
    (forall x, ru_exds r = Some x -> ex_parts x = None) ->
    snd (ru_algorithm r) (option_map ex_matrix (ru_exds r)) p = (p', Ok mb) ->
    snd (step w (Run i t0 t1)) = Err AttributeError /\
    exists r', nth_error (runs (fst (step w (Run i t0 t1)))) i = Some r' /\ nth_error (lists (fst (step w (Run i t0 t1)))) (ru_mb r') = Some mb /\
      ru_duration r' = (t1 - t0)%Z /\ ru_evaluation r' = ru_evaluation r.
  Proof.
    intros w i r p t0 t1 p' mb (name, ev) W Er Ep Ec Hx Ea. cbn [RunObj_Model.step]. unfold run_object. rewrite Er, Ep. unfold run_plain. rewrite Ea. cbn [ru_classifier ru_exds]. rewrite Ec.
    assert (Hi := nth_lt _ _ _ Er). destruct (ru_exds r) as [x|]; cbn [of_option bind]; [rewrite (Hx x eq_refl)|]; cbn [of_option bind fst snd]; (split; [reflexivity|]); eexists;
      (split; [cbn [set_run runs new_list set_dict]; apply put_same; rewrite put_length; assumption|]; cbn; rewrite nth_error_app2, Nat.sub_diag by lia; auto).
  Qed.
  (** With a split dataset the classifier is evaluated on the two parts with the boundary just found and
      the dictionary as the algorithm left it. *)
  Theorem C71_classifier_sees_the_parts : forall w i r p t0 t1 p' mb name ev x train test, wf w ->
    nth_error (runs w) i = Some r -> nth_error (dicts w) (ru_params r) = Some p -> ru_classifier r = Some (name, ev) ->
    ru_exds r = Some x -> ex_parts x = Some (train, test) ->
    snd (ru_algorithm r) (Some (ex_matrix x)) p = (p', Ok mb) ->
    (forall v, ev train test mb p' = Ok v -> snd (step w (Run i t0 t1)) = Ok tt /\
       exists r', nth_error (runs (fst (step w (Run i t0 t1)))) i = Some r' /\ ru_evaluation r' = Some v) /\
    (forall e, ev train test mb p' = Err e -> snd (step w (Run i t0 t1)) = Err e /\
       exists r', nth_error (runs (fst (step w (Run i t0 t1)))) i = Some r' /\ ru_evaluation r' = ru_evaluation r).
  Proof.
    intros w i r p t0 t1 p' mb name ev x train test W Er Ep Ec Ex Et Ea. cbn [RunObj_Model.step]. unfold run_object. rewrite Er, Ep. unfold run_plain. rewrite Ex. cbn [option_map]. rewrite Ea. cbn [ru_classifier ru_exds]. rewrite Ec.
    cbn [of_option bind]. rewrite Et. cbn [of_option bind ru_params ru_mb]. assert (Hi := nth_lt _ _ _ Er). assert (Hd := nth_lt _ _ _ Ep).
    cbn [set_run new_list set_dict dicts lists]. rewrite put_same by assumption. cbn [of_option bind fst snd]. rewrite app_nth2, Nat.sub_diag by lia. cbn [nth].
    split; intros z Ez; rewrite Ez; cbn [fst snd]; (split; [reflexivity|]); eexists; (split; [unfold set_run, new_list, set_dict; cbn [runs]; apply put_same; rewrite ?put_length; assumption|reflexivity]).
  Qed.
  (** Constructing a run needs 'ID' in the parameters and 'algorithm' (and 'classifier') in the
      configuration; otherwise KeyError, and nothing is made. *)
  Theorem C71_constructing : forall w x c d p, nth_error (dicts w) d = Some p ->
    (snd (step w (NewRun x c d)) = Ok tt <-> assoc String.eqb "ID"%string p <> None /\ cf_algorithm c <> None) /\
    (snd (step w (NewClassifierRun x c d)) = Ok tt <-> assoc String.eqb "ID"%string p <> None /\ cf_algorithm c <> None /\ cf_classifier c <> None) /\
    (forall a, a = NewRun x c d \/ a = NewClassifierRun x c d -> snd (step w a) = Ok tt \/ step w a = (w, Err KeyError)) /\
    (snd (step w (NewRun x c d)) = Ok tt -> exists r, runs (fst (step w (NewRun x c d))) = runs w ++ [r] /\ ru_params r = d /\ assoc String.eqb "ID"%string p = Some (ru_ID r) /\
       nth_error (lists (fst (step w (NewRun x c d)))) (ru_mb r) = Some [] /\ dicts (fst (step w (NewRun x c d))) = dicts w).
  Proof.
    intros w x c d p Hp. cbn [RunObj_Model.step]. unfold make_run. rewrite Hp. cbn [of_option bind].
    assert (A : forall b, b = NewRun x c d \/ b = NewClassifierRun x c d -> snd (step w b) = Ok tt \/ step w b = (w, Err KeyError)).
    { intros b [-> | ->]; cbn [RunObj_Model.step]; unfold make_run; rewrite Hp; cbn [of_option bind]; destruct (assoc _ _ p); cbn [of_option bind]; [|auto|..|auto];
        destruct (cf_algorithm c); cbn [of_option bind]; auto. destruct (cf_classifier c); cbn; auto. }
    destruct (assoc _ _ p) as [id|]; cbn [of_option bind]; [destruct (cf_algorithm c) as [al|]; cbn [of_option bind]; [destruct (cf_classifier c) as [cl|]; cbn [of_option bind]|]|];
      cbn [snd fst]; (split; [split; [intros H; try discriminate H; repeat split; discriminate|intros H; try reflexivity; destruct H as (H1 & H2); contradiction]|]);
      (split; [split; [intros H; try discriminate H; repeat split; discriminate|intros H; try reflexivity; destruct H as (H1 & H2 & H3); contradiction]|]); (split; [exact A|]); intros H; try discriminate H;
      eexists; (split; [reflexivity|]); cbn; rewrite nth_error_app2, Nat.sub_diag by lia; auto.
  Qed.

  (** ** Saving *)
  Definition writable (v : value) : Prop := match v with Text _ => True | Callable _ i => i = true | Other o => picklable o = true end.
  Definition all_writable (c : pickled) : Prop := writable (pk_ID c) /\ Forall (fun kv => writable (snd kv)) (pk_params c).
  Lemma pickles_writable v : pickles picklable v = true <-> writable v.
  Proof. destruct v; cbn; tauto. Qed.
  Lemma can_pickle_writable c : can_pickle picklable c = true <-> all_writable c.
  Proof.
    unfold can_pickle, all_writable. rewrite Bool.andb_true_iff, pickles_writable, forallb_forall, Forall_forall. split; intros (A & B); (split; [exact A|]); intros kv H; apply pickles_writable; exact (B kv H).
  Qed.
  (** A saved datapoint is what was seen when it was saved: whatever happens afterwards (to the datapoint,
      the run, the dictionaries, the lists, other files), until something else is saved there, reading
      the file gives a new datapoint, with a dictionary and a list of its own, with the same contents. *)
  Theorem C71_saved_datapoint : forall w j f c, seen w j = Some c -> all_writable c ->
    snd (step w (Save j f)) = Ok tt /\
    forall ops, (forall a, In a ops -> ~ writes_file f a) ->
      let w1 := history (fst (step w (Save j f))) ops in
      snd (step w1 (Load f)) = Ok tt /\ seen (fst (step w1 (Load f))) (length (points w1)) = Some c /\
      exists dp, points (fst (step w1 (Load f))) = points w1 ++ [dp] /\ dp_params dp = length (dicts w1) /\ dp_mb dp = length (lists w1).
  Proof.
    intros w j f c Hc Hw. unfold seen in Hc. cbn [RunObj_Model.step]. destruct (nth_error (points w) j) as [p|]; [|discriminate]. injection Hc as Hc. rewrite Hc.
    apply can_pickle_writable in Hw. rewrite Hw. cbn [fst snd]. split; [reflexivity|]. intros ops Ho. cbv zeta. match goal with |- context [RunObj_Model.history show picklable ?a ops] => set (w1 := RunObj_Model.history show picklable a ops) end.
    assert (Ef : assoc String.eqb f (files w1) = Some (Pickled c)) by (unfold w1; rewrite history_file by exact Ho; cbn [set_file files]; apply assoc_set_same).
    rewrite Ef. cbn [fst snd]. split; [reflexivity|]. split.
    - unfold seen, add_point, new_list, new_dict. cbn [points]. rewrite nth_error_app2, Nat.sub_diag by lia. cbn [nth_error option_map]. unfold contents. cbn [dp_params dp_ID dp_name dp_mb dp_start dp_end dp_duration dp_classifier dicts lists].
      rewrite !app_nth2, !Nat.sub_diag by lia. cbn [nth]. destruct c; reflexivity.
    - eexists. split; [reflexivity|]. split; reflexivity.
  Qed.
  (** What pickle cannot write is lost, and so is what the file held before: the call raises, and reading the
      file raises from then on. *)
  Theorem C71_unwritable_destroys_the_file : forall w j f c, seen w j = Some c -> ~ all_writable c ->
    snd (step w (Save j f)) = Err PickleErr /\
    forall ops, (forall a, In a ops -> ~ writes_file f a) ->
      let w1 := history (fst (step w (Save j f))) ops in step w1 (Load f) = (w1, Err PickleErr).
  Proof.
    intros w j f c Hc Hw. unfold seen in Hc. cbn [RunObj_Model.step]. destruct (nth_error (points w) j) as [p|]; [|discriminate]. injection Hc as Hc. rewrite Hc.
    rewrite <- can_pickle_writable in Hw. apply Bool.not_true_is_false in Hw. rewrite Hw. cbn [fst snd]. split; [reflexivity|]. intros ops Ho. cbv zeta. match goal with |- context [RunObj_Model.history show picklable ?a ops] => set (w1 := RunObj_Model.history show picklable a ops) end.
    assert (Ef : assoc String.eqb f (files w1) = Some Torn) by (unfold w1; rewrite history_file by exact Ho; cbn [set_file files]; apply assoc_set_same).
    rewrite Ef. reflexivity.
  Qed.
  (** The datapoint of a run can be saved if and only if pickle can write the run's ID and every callable among
      its parameters can be imported by name; no other parameter matters, because only its text is kept. *)
  Theorem C71_when_a_run_can_be_saved : forall w i r p w1 f,
    nth_error (runs w) i = Some r -> nth_error (dicts w) (ru_params r) = Some p -> step w (MakePoint i) = (w1, Ok tt) ->
    (snd (step w1 (Save (length (points w)) f)) = Ok tt <-> writable (ru_ID r) /\ forall k n b, In (k, Callable n b) p -> b = true).
  Proof.
    intros w i r p w1 f Er Ep E. cbn [RunObj_Model.step] in E. rewrite Er in E. cbn [of_option bind] in E. rewrite Ep in E. cbn [of_option bind] in E. injection E as <-.
    cbn [RunObj_Model.step]. unfold make_point, add_point, new_dict. cbn [points]. rewrite nth_error_app2, Nat.sub_diag by lia. cbn [nth_error]. unfold contents. cbn [dp_params dp_ID dp_name dp_mb dp_start dp_end dp_duration dp_classifier dicts lists].
    rewrite app_nth2, Nat.sub_diag by lia. cbn [nth].
    match goal with |- context [can_pickle picklable ?c] => assert (H := can_pickle_writable c); destruct (can_pickle picklable c) end; cbn [snd]; unfold all_writable in H; cbn [pk_ID pk_params] in H.
    - split; [intros _|reflexivity]. destruct (proj1 H eq_refl) as (A & B). split; [exact A|]. intros k n b Hb. rewrite Forall_forall in B. apply (B (k, Callable n b)). unfold pickleable_parameters. apply in_map_iff. exists (k, Callable n b). auto.
    - split; [discriminate|]. intros (A & B). exfalso. enough (false = true) by discriminate. apply H. split; [exact A|]. apply Forall_forall. intros kv Hk. unfold pickleable_parameters in Hk. apply in_map_iff in Hk as ((k, v) & <- & Hk).
      cbn [snd]. destruct v; cbn; try exact Logic.I. exact (B _ _ _ Hk).
  Qed.
End C71.

(** ** Cases *)
Section C71_cases.
  Open Scope string_scope.
  Let show (n : nat) : string := "<object>".
  Let picklable (n : nat) : bool := false.
  Let column (l : list Z) : smat := {| sm_format := CSR; sm_ncols := 1; sm_rows := map (fun v => [v]) l |}.
  Let matrix (l : list Z) : dmatrix := {| dm_label := "d"; dm_X := column l; dm_Y := column l; dm_row_labels := map (fun _ => [48]) l; dm_labels_X := [[120]]; dm_labels_Y := [[121]]; dm_final := true |}.
  (** an algorithm that answers with the number of rows whose first value is 1, and a G-test-like one that
      writes the name of its test into the parameters *)
  Let counting : behaviour := fun m p => (p, match m with None => Err AttributeError | Some m => Ok [length (filter (fun r => match r with 1%Z :: _ => true | _ => false end) (sm_rows (dm_X m)))] end).
  Let gtesting : behaviour := fun m p => (assoc_set String.eqb "ci_test_name" (Text "G") p, Ok []).
  Let perfect : evaluator := fun train test mb p => Ok {| TP := 1; TN := 0; FP := 0; FN := 0 |}.
  Let cfg (n : string) (b : behaviour) : configuration := {| cf_algorithm := Some (n, b); cf_classifier := Some ("perfect", perfect) |}.

  Theorem C71_reachable_worlds : wf empty_world /\ forall show picklable ops, wf (history show picklable empty_world ops).
  Proof. assert (H : wf empty_world) by (split; constructor). split; [exact H|]. intros. apply history_wf, H. Qed.

  (** The rows held back for testing decide which boundary is learnt (and hence what the classifier is given):
      two datasets with the same training part. *)
  Theorem C71_learns_from_training_rows_refuted : exists x x' ops ops' r r',
    option_map fst (ex_parts x) = option_map fst (ex_parts x') /\
    ops = [NewDict [("ID", Text "1")]; NewClassifierRun (Some x) (cfg "c" counting) 0; Run 0 0 1] /\
    ops' = [NewDict [("ID", Text "1")]; NewClassifierRun (Some x') (cfg "c" counting) 0; Run 0 0 1] /\
    nth_error (runs (history show picklable empty_world ops)) 0 = Some r /\ nth_error (runs (history show picklable empty_world ops')) 0 = Some r' /\
    ru_evaluation r <> None /\ ru_evaluation r' <> None /\
    nth_error (lists (history show picklable empty_world ops)) (ru_mb r) <> nth_error (lists (history show picklable empty_world ops')) (ru_mb r').
  Proof.
    exists {| ex_matrix := matrix [1%Z; 1%Z]; ex_parts := Some (matrix [1%Z], matrix [1%Z]) |}, {| ex_matrix := matrix [1%Z; 0%Z]; ex_parts := Some (matrix [1%Z], matrix [0%Z]) |}. do 4 eexists.
    split; [reflexivity|]. split; [reflexivity|]. split; [reflexivity|]. split; [cbv; reflexivity|]. split; [cbv; reflexivity|]. cbn [ru_evaluation ru_mb]. split; [discriminate|]. split; [discriminate|]. cbv. discriminate.
  Qed.
  (** Two runs given the same dictionary: the datapoint of the second, which makes no G-test, names the G-test
      of the first. *)
  Theorem C71_parameters_are_the_runs_own_refuted : exists ops c,
    ops = [NewDict [("ID", Text "1")]; NewRun None (cfg "g" gtesting) 0; NewRun (Some {| ex_matrix := matrix [1%Z; 1%Z]; ex_parts := None |}) (cfg "c" counting) 0; Run 0 0 1; Run 1 2 3; MakePoint 1] /\
    seen (history show picklable empty_world ops) 0 = Some c /\ pk_name c = "c" /\ assoc String.eqb "ci_test_name" (pk_params c) = Some (Text "G").
  Proof. eexists _, _. split; [reflexivity|]. split; [cbv; reflexivity|]. split; reflexivity. Qed.
  (** A run that was saved, and is run again with a parameter that is a lambda: the second save fails and the
      first result cannot be read any more. *)
  Theorem C71_failed_save_keeps_the_old_file_refuted : exists ops,
    ops = [NewDict [("ID", Text "1"); ("n", Other 7)]; NewRun None (cfg "g" gtesting) 0; Run 0 0 1; MakePoint 0; Save 0 "1.pickle"] /\
    snd (step show picklable (history show picklable empty_world ops) (Load "1.pickle")) = Ok tt /\
    let w := history show picklable empty_world (ops ++ [SetParam 0 "heuristic" (Callable "<lambda>" false); Run 0 2 3; MakePoint 0]) in
    snd (step show picklable w (Save 1 "1.pickle")) = Err PickleErr /\
    snd (step show picklable (fst (step show picklable w (Save 1 "1.pickle"))) (Load "1.pickle")) = Err PickleErr.
  Proof. eexists. split; [reflexivity|]. cbv. repeat split. Qed.
  (** The hypotheses of the theorems above are met by a run that was made, run, recorded and saved. *)
  Theorem C71_met : exists ops c, ops = [NewDict [("ID", Text "1"); ("n", Other 7)]; NewRun None (cfg "g" gtesting) 0; Run 0 10 15; MakePoint 0] /\
    let w := history show picklable empty_world ops in
    seen w 0 = Some c /\ all_writable picklable c /\ pk_params c = [("ID", Text "1"); ("n", Text "<object>"); ("ci_test_name", Text "G")] /\ pk_duration c = 5%Z /\
    seen (history show picklable w [SetParam 0 "n" (Text "2"); Run 0 20 30; Save 0 "f"]) 0 = Some c.
  Proof. eexists _, _. split; [reflexivity|]. split; [cbv; reflexivity|]. split; [split; [exact Logic.I|repeat constructor]|]. split; [reflexivity|]. split; [reflexivity|]. cbv. reflexivity. Qed.
End C71_cases.
