(** C56: read_bif_file and the network it keeps in a .pickle file beside the BIF file. *)
From Coq Require Import Reals.
From Verif Require Import Base BN_Model Bif_Model.
Open Scope nat_scope.

Section Spec.
  Context {T N : Type} (parse : T -> res N).
  (** what the BIF file says, right now *)
  Definition in_file (d : @disk T N) (s : nat) : res N := match d_text d s with None => Err OSErr | Some t => parse t end.
  (** calls that were started in a history *)
  Definition calls (es : list (@event T)) (s : nat) (use_cache : bool) : Prop := In (Begin s use_cache) es.
  Definition no_edits (es : list (@event T)) : Prop := forall s t, ~ In (Edit s t) es.
  Definition only_edits (es : list (@event T)) : Prop := forall e, In e es -> exists s t, e = Edit s t.
  (** a call ended with [r] *)
  Definition ended (st : @disk T N * list (option (@reader N))) (r : res N) : Prop := In (Some (Done r)) (snd st).
End Spec.

Section Proofs.
  Context {T N : Type} (parse : T -> res N).
  Lemma set_nth_In {A} i (x y : A) l : In y (set_nth i x l) -> y = x \/ In y l.
  Proof.
    unfold set_nth. intros H. apply in_map_iff in H as ([j z] & E & Hin). cbn [fst snd] in E. destruct (Nat.eqb i j); [left; symmetry; exact E|]. right. subst. apply in_combine_r in Hin. exact Hin.
  Qed.
  (** an invariant of the disk and of every call *)
  Lemma history_inv (ID : @disk T N -> Prop) (IP : @disk T N -> @reader N -> Prop) (allowed : event -> Prop) :
    (forall d p, ID d -> IP d p -> let d' := fst (read_step parse d p) in
       ID d' /\ IP d' (snd (read_step parse d p)) /\ forall q, IP d q -> IP d' q) ->
    (forall d s uc, allowed (Begin s uc) -> ID d -> IP d (Start s uc)) ->
    (forall d s t, allowed (Edit s t) -> ID d -> let d' := {| d_text := fun s' => if Nat.eqb s' s then t else d_text d s'; d_cache := d_cache d |} in
       ID d' /\ forall q, IP d q -> IP d' q) ->
    forall es d, ID d -> (forall e, In e es -> allowed e) ->
      let st := history parse d es in ID (fst st) /\ (forall p, In (Some p) (snd st) -> IP (fst st) p).
  Proof.
    intros Hs Hb He es d Hd. unfold history.
    assert (G : forall ps, (forall p, In (Some p) ps -> IP d p) -> (forall e, In e es -> allowed e) ->
      let st := fold_left (happen parse) es (d, ps) in ID (fst st) /\ (forall p, In (Some p) (snd st) -> IP (fst st) p)).
    2: { apply G. intros p []. }
    revert d Hd. induction es as [|e es IH]; intros d Hd ps Hps Ha; [split; [exact Hd|exact Hps]|]. cbn [fold_left].
    assert (Ha' : forall e0, In e0 es -> allowed e0) by (intros e0 H0; apply Ha; right; exact H0).
    pose proof (Ha e (or_introl eq_refl)) as Hae. destruct e as [s uc|i|i|s t]; cbn [happen].
    - apply IH; [exact Hd| |exact Ha']. intros p Hp. apply in_app_or in Hp as [Hp|[Hp|[]]]; [auto|]. injection Hp as <-. apply Hb; assumption.
    - destruct (nth_error ps i) as [[p|]|] eqn:En; [|apply IH; assumption|apply IH; assumption].
      apply nth_error_In in En. apply Hps in En. destruct (Hs d p Hd En) as (A & B & C). destruct (read_step parse d p) as [d' p']. cbn [fst snd] in *.
      apply IH; [exact A| |exact Ha']. intros q Hq. apply set_nth_In in Hq as [Hq|Hq]; [injection Hq as ->; exact B|auto].
    - apply IH; [exact Hd| |exact Ha']. intros q Hq. apply set_nth_In in Hq as [Hq|Hq]; [discriminate|auto].
    - destruct (He d s t Hae Hd) as [A B]. apply IH; [exact A| |exact Ha']. intros q Hq. apply B, Hps, Hq.
  Qed.

  (** ** one call at a time *)
  (** without the cache a call returns what the file says and leaves it in the cache *)
  Theorem C56_uncached : forall d s,
    read_bif_file parse d s false =
      match in_file parse d s with Ok n => (with_cache d (Pickled n), Done (Ok n)) | Err e => (d, Done (Err e)) end.
  Proof.
    intros d s. unfold read_bif_file, in_file. cbn [read_steps read_step]. destruct (d_text d s) as [t|]; [|reflexivity]. destruct (parse t) as [n|e]; reflexivity.
  Qed.
  (** with the cache: the cached network if there is one, whatever the file says; otherwise as above *)
  Theorem C56_cached : forall d s,
    read_bif_file parse d s true =
      match d_cache d with
      | Pickled n => (d, Done (Ok n))
      | Torn => (d, Done (Err PickleErr))
      | Absent => match in_file parse d s with Ok n => (with_cache d (Pickled n), Done (Ok n)) | Err e => (d, Done (Err e)) end
      end.
  Proof.
    intros d s. unfold read_bif_file, in_file. cbn [read_steps read_step]. destruct (d_cache d) as [| |n] eqn:Ec; cbn [read_steps read_step]; rewrite ?Ec; try reflexivity.
    destruct (d_text d s) as [t|]; [|reflexivity]. destruct (parse t) as [n|e]; reflexivity.
  Qed.

  (** calls of the same file one after the other, the file unchanged: each returns what the file says *)
  Fixpoint one_by_one (d : disk) (s : nat) (ucs : list bool) : list (@reader N) :=
    match ucs with [] => [] | uc :: ucs' => let (d', p) := read_bif_file parse d s uc in p :: one_by_one d' s ucs' end.
  Theorem C56_one_by_one : forall ucs d s, d_cache d = Absent ->
    forall p, In p (one_by_one d s ucs) -> p = Done (in_file parse d s).
  Proof.
    intros ucs d0 s0 H0.
    assert (G : forall d s, (d_cache d = Absent \/ exists n, d_cache d = Pickled n /\ in_file parse d s = Ok n) ->
                 forall p, In p (one_by_one d s ucs) -> p = Done (in_file parse d s)).
    2: { apply G. left. exact H0. }
    induction ucs as [|uc ucs IH]; intros d s Hc p Hp; [destruct Hp|]. cbn [one_by_one] in Hp.
    destruct uc.
    - rewrite C56_cached in Hp. destruct Hc as [Hc|(n & Hc & Hn)]; rewrite Hc in Hp.
      + destruct (in_file parse d s) as [n|e] eqn:E; destruct Hp as [<-|Hp]; try reflexivity.
        * rewrite (IH (with_cache d (Pickled n)) s (or_intror (ex_intro _ n (conj eq_refl E))) p Hp). f_equal. exact E.
        * rewrite (IH d s (or_introl Hc) p Hp), E. reflexivity.
      + destruct Hp as [<-|Hp]; [rewrite Hn; reflexivity|]. apply (IH d s); [right; eauto|exact Hp].
    - rewrite C56_uncached in Hp. destruct (in_file parse d s) as [n|e] eqn:E; destruct Hp as [<-|Hp]; try reflexivity.
      + rewrite (IH (with_cache d (Pickled n)) s (or_intror (ex_intro _ n (conj eq_refl E))) p Hp). f_equal. exact E.
      + destruct Hc as [Hc|(n & Hc & Hn)]; [|discriminate]. rewrite (IH d s (or_introl Hc) p Hp), E. reflexivity.
  Qed.

  (** ** any number of calls at a time, killed anywhere *)
  (** The file is not edited, and the cache is absent or right: whatever the schedule, each call that
      ends returns what the file says, or fails because the cache is not complete. *)
  Theorem C56_concurrent : forall d s es,
    d_cache d = Absent \/ (exists n, d_cache d = Pickled n /\ in_file parse d s = Ok n) ->
    no_edits es -> (forall s' uc, calls es s' uc -> s' = s) ->
    forall r, ended (history parse d es) r -> r = in_file parse d s \/ (r = Err PickleErr /\ exists n, in_file parse d s = Ok n).
  Proof.
    intros d s es Hc He Hs r Hr.
    set (ID := fun d' : @disk T N => in_file parse d' s = in_file parse d s /\
            (d_cache d' = Absent \/ (d_cache d' = Torn /\ exists n, in_file parse d s = Ok n) \/ exists n, d_cache d' = Pickled n /\ in_file parse d s = Ok n)).
    set (IP := fun (d' : @disk T N) (p : @reader N) => match p with
            | Start s' _ | Parse s' => s' = s
            | Load => d_cache d' <> Absent
            | OpenCache n | Dump n => in_file parse d s = Ok n
            | Done r => r = in_file parse d s \/ (r = Err PickleErr /\ exists n, in_file parse d s = Ok n)
            end).
    set (allowed := fun e : @event T => match e with Begin s' _ => s' = s | Edit _ _ => False | _ => True end).
    assert (Hal : forall e, In e es -> allowed e).
    { intros e Hin. destruct e as [s' uc| | |s' t]; cbn; auto; [apply (Hs s' uc Hin)|apply (He s' t Hin)]. }
    assert (Hkeep : forall d1 d2 q, (d_cache d1 <> Absent -> d_cache d2 <> Absent) -> IP d1 q -> IP d2 q) by (intros d1 d2 q H Hq; destruct q; cbn in *; auto).
    destruct (history_inv ID IP allowed) with (es := es) (d := d) as [_ G]; [| | | |exact Hal|].
    - intros d' p [E Hd] Hp. destruct p as [s' uc| |s'|n|n|r']; cbn [read_step fst snd]; cbn in Hp; cbn zeta.
      + split; [split; assumption|]. split; [|auto]. subst s'. destruct uc; [|reflexivity]. destruct (d_cache d') eqn:Ed; cbn; congruence.
      + split; [split; assumption|]. split; [|auto]. cbn. destruct Hd as [Hd|[(Hd & n & Hn)|(n & Hd & Hn)]]; rewrite Hd; [congruence|right; eauto|left; symmetry; exact Hn].
      + split; [split; assumption|]. split; [|auto]. subst s'. unfold in_file in E at 1. destruct (d_text d' s) as [t|]; [|left; exact E]. destruct (parse t) as [n|e]; cbn; [symmetry; exact E|left; exact E].
      + split; [|split; [exact Hp|]].
        * split; [exact E|]. right. left. split; [reflexivity|eauto].
        * intros q. apply Hkeep. intros _. discriminate.
      + split; [|split; [left; symmetry; exact Hp|]].
        * split; [exact E|]. right. right. exists n. split; [reflexivity|exact Hp].
        * intros q. apply Hkeep. intros _. discriminate.
      + split; [split; assumption|]. split; [exact Hp|auto].
    - intros d' s' uc H _. exact H.
    - intros d' s' t [].
    - split; [reflexivity|]. destruct Hc as [Hc|Hc]; auto.
    - exact (G _ Hr).
  Qed.
  (** a file that cannot be read is never cached, and each call fails with the error of the file *)
  Theorem C56_unreadable_file : forall d s es e, d_cache d = Absent -> in_file parse d s = Err e ->
    no_edits es -> (forall s' uc, calls es s' uc -> s' = s) -> forall r, ended (history parse d es) r -> r = Err e.
  Proof.
    intros d s es e Hc E He Hs r Hr. destruct (C56_concurrent d s es (or_introl Hc) He Hs r Hr) as [-> |(_ & n & Hn)]; [exact E|congruence].
  Qed.

  (** what a call that is killed leaves in the cache *)
  Theorem C56_kill_points : forall d s uc k c, d_cache (fst (read_steps parse k d (Start s uc))) = c ->
    c = d_cache d \/ c = Torn \/ exists n, in_file parse d s = Ok n /\ c = Pickled n.
  Proof.
    intros d s uc k c <-.
    assert (Hid : forall k d (r : res N), read_steps parse k d (Done r) = (d, Done r)) by (induction k0 as [|k0 IH]; intros; cbn [read_steps read_step]; auto).
    assert (Hparse : forall k, let c := d_cache (fst (read_steps parse k d (Parse s))) in c = d_cache d \/ c = Torn \/ exists n, in_file parse d s = Ok n /\ c = Pickled n).
    { intros k0. cbn zeta. unfold in_file. destruct k0 as [|k0]; [left; reflexivity|]. cbn [read_steps read_step]. destruct (d_text d s) as [t|]; [|rewrite Hid; left; reflexivity].
      destruct (parse t) as [n|e]; [|rewrite Hid; left; reflexivity]. destruct k0 as [|k0]; [left; reflexivity|]. cbn [read_steps read_step].
      destruct k0 as [|k0]; [right; left; reflexivity|]. cbn [read_steps read_step]. rewrite Hid. right. right. exists n. split; reflexivity. }
    destruct k as [|k]; [left; reflexivity|]. cbn [read_steps read_step]. destruct uc; [|apply Hparse]. destruct (d_cache d) eqn:Ec; [rewrite <- Ec in *; apply Hparse| |];
    (destruct k as [|k]; [left; exact Ec|]; cbn [read_steps read_step]; rewrite Hid; left; exact Ec).
  Qed.

  (** ** what goes wrong *)
  (** after a successful call, no change of the BIF file (not even its deletion) is seen by a cached call *)
  Theorem C56_stale : forall d s uc d1 n es, read_bif_file parse d s uc = (d1, Done (Ok n)) -> only_edits es ->
    let d2 := fst (history parse d1 es) in read_bif_file parse d2 s true = (d2, Done (Ok n)).
  Proof.
    intros d s uc d1 n es E He. cbn zeta.
    assert (H1 : d_cache d1 = Pickled n).
    { destruct uc; [rewrite C56_cached in E|rewrite C56_uncached in E].
      - destruct (d_cache d) as [| |m] eqn:Ec; [|congruence|congruence]. destruct (in_file parse d s); [injection E as <- <-; reflexivity|discriminate].
      - destruct (in_file parse d s); [injection E as <- <-; reflexivity|discriminate]. }
    assert (H2 : d_cache (fst (history parse d1 es)) = Pickled n).
    { destruct (history_inv (fun d => d_cache d = Pickled n) (fun _ _ => False) (fun e => exists s t, e = Edit s t)) with (es := es) (d := d1) as [G _]; auto.
      - intros d' p _ [].
      - intros d' s' uc' (a & b & F). discriminate. }
    rewrite C56_cached, H2. reflexivity.
  Qed.

  (** a call killed while it writes the cache: from then on every call that uses the cache fails,
      however many there are and whatever happens to the BIF file *)
  Theorem C56_torn : forall d s es, d_cache d = Torn -> (forall s' uc, calls es s' uc -> uc = true) ->
    (forall r, ended (history parse d es) r -> r = Err PickleErr) /\
    read_bif_file parse (fst (history parse d es)) s true = (fst (history parse d es), Done (Err PickleErr)).
  Proof.
    intros d s es Hd Hc.
    destruct (history_inv (fun d => d_cache d = Torn) (fun _ p => match p with Start _ uc => uc = true | Load => True | Done r => r = Err PickleErr | _ => False end)
       (fun e => match e with Begin _ uc => uc = true | _ => True end)) with (es := es) (d := d) as [G1 G2]; auto.
    - intros d' p Hd' Hp. destruct p as [s' uc| |s'|n|n|r]; try contradiction; cbn [read_step fst snd]; cbn zeta; (split; [exact Hd'|]); (split; [|auto]).
      + subst uc. rewrite Hd'. exact Logic.I.
      + rewrite Hd'. reflexivity.
      + exact Hp.
    - intros e Hin. destruct e as [s' uc| | |]; auto. apply (Hc s' uc Hin).
    - cbn zeta in *. split; [intros r Hr; apply (G2 _ Hr)|]. rewrite C56_cached, G1. reflexivity.
  Qed.
  Theorem C56_kill_while_writing : forall d s n, in_file parse d s = Ok n ->
    let d' := fst (history parse d [Begin s false; Step 0; Step 0; Step 0; Kill 0]) in
    d_cache d' = Torn /\ d_text d' = d_text d /\ read_bif_file parse d' s false = (with_cache d (Pickled n), Done (Ok n)).
  Proof.
    intros d s n H. unfold history. cbn [fold_left happen app nth_error read_step set_nth combine seq length map Nat.eqb fst snd]. unfold in_file in H. destruct (d_text d s) as [t|] eqn:Et; [|discriminate].
    rewrite H. cbn [fold_left happen app nth_error read_step set_nth combine seq length map Nat.eqb fst snd]. split; [reflexivity|]. split; [reflexivity|]. rewrite C56_uncached. unfold in_file, with_cache. cbn [d_text]. rewrite Et, H. reflexivity.
  Qed.
  (** nobody is killed: the second call reads while the first one writes *)
  Theorem C56_two_calls : forall d s n, in_file parse d s = Ok n -> d_cache d = Absent ->
    ended (history parse d [Begin s true; Begin s true; Step 0; Step 0; Step 0; Step 1; Step 1; Step 0]) (Err PickleErr) /\
    ended (history parse d [Begin s true; Begin s true; Step 0; Step 0; Step 0; Step 1; Step 1; Step 0]) (Ok n).
  Proof.
    intros d s n H Hc. unfold in_file in H. unfold ended, history. cbn [fold_left happen app nth_error read_step set_nth combine seq length map Nat.eqb fst snd]. rewrite Hc.
    cbn [fold_left happen app nth_error read_step set_nth combine seq length map Nat.eqb fst snd]. destruct (d_text d s) as [t|] eqn:Et; [|discriminate]. rewrite H. cbn. auto.
  Qed.
  (** two BIF files whose names differ in the suffix only have the same cache: the second call
      returns the network of the first file *)
  Theorem C56_same_stem : forall d s s' n, d_cache d = Absent -> in_file parse d s = Ok n ->
    let d' := fst (read_bif_file parse d s true) in
    read_bif_file parse d' s' true = (d', Done (Ok n)) /\ d_text d' s' = d_text d s'.
  Proof.
    intros d s s' n Hc H. cbn zeta. pose proof (C56_cached d s) as E. rewrite Hc, H in E. rewrite E. cbn [fst]. split; [rewrite C56_cached; reflexivity|reflexivity].
  Qed.
End Proofs.

(** the parser that reads the number in the text, if it is even *)
Definition half (t : nat) : res nat := if Nat.even t then Ok (Nat.div2 t) else Err ValueError.
Definition two_files : @disk nat nat := {| d_text := fun s => match s with 0 => Some 8 | 1 => Some 10 | 2 => Some 7 | _ => None end; d_cache := Absent |}.
Example C56_nonvacuous :
  in_file half two_files 0 = Ok 4 /\ in_file half two_files 1 = Ok 5 /\ in_file half two_files 2 = Err ValueError /\ in_file half two_files 3 = Err OSErr /\
  one_by_one half two_files 0 [true; false; true] = [Done (Ok 4); Done (Ok 4); Done (Ok 4)] /\
  (* read, edited, read again *)
  (let d1 := fst (read_bif_file half two_files 0 true) in
   let d2 := fst (history half d1 [Edit 0 (Some 12)]) in
   in_file half d2 0 = Ok 6 /\ snd (read_bif_file half d2 0 true) = Done (Ok 4) /\ snd (read_bif_file half d2 0 false) = Done (Ok 6)) /\
  (* the cache of file 0 for file 1 *)
  snd (read_bif_file half (fst (read_bif_file half two_files 0 true)) 1 true) = Done (Ok 4).
Proof. repeat split. Qed.
