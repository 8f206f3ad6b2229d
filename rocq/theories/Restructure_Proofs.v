From Coq Require Import String.
From Verif Require Import Base Matrix_Model FS_Model FS_Proofs Restructure_Spec Restructure_Model.
Open Scope list_scope.

(** ** texts *)
Lemma append_inj a : forall x y, String.append a x = String.append a y -> x = y.
Proof.
  induction a as [|c a IH]; intros x y; cbn [String.append]; [trivial|].
  intros H. apply IH. congruence.
Qed.
Lemma old_inj a b : old_folder a = old_folder b -> a = b.
Proof. apply append_inj. Qed.
Lemma old_new a : old_folder a <> new_folder.
Proof. unfold old_folder, new_folder. cbn [String.append]. congruence. Qed.
Lemma sub_all s : String.substring 0 (String.length s) s = s.
Proof. induction s as [|c s IH]; cbn [String.length String.substring]; [reflexivity|]. rewrite IH. reflexivity. Qed.
Lemma sub_drop a x : String.substring (String.length a) (String.length (String.append a x) - String.length a) (String.append a x) = x.
Proof.
  induction a as [|c a IH]; cbn [String.length String.append String.substring Nat.sub]; [|exact IH].
  rewrite Nat.sub_0_r. apply sub_all.
Qed.
Lemma new_name_old sub : new_name (old_folder sub) = sub.
Proof. exact (sub_drop old_prefix sub). Qed.
Lemma prefix_some a : forall b, prefix a b = true -> exists r, b = String.append a r.
Proof.
  induction a as [|c a IH]; intros b; [intros _; exists b; reflexivity|].
  destruct b as [|d b]; cbn [prefix]; [congruence|].
  destruct (Ascii.ascii_dec c d) as [<-|]; [|congruence].
  intros H. destruct (IH _ H) as (r & ->). exists r. reflexivity.
Qed.
Lemma prefix_append a r : prefix a (String.append a r) = true.
Proof.
  induction a as [|c a IH]; cbn [prefix String.append]; [destruct r; reflexivity|].
  destruct (Ascii.ascii_dec c c); [assumption|congruence].
Qed.
Lemma old_prefix_spec n : prefix old_prefix n = true <-> exists sub, n = old_folder sub.
Proof.
  split.
  - intros H. destruct (prefix_some _ _ H) as (r & ->). exists r. reflexivity.
  - intros (sub & ->). apply prefix_append.
Qed.
Lemma kind_In df : moved_kind df <-> In df data_folders.
Proof.
  unfold moved_kind, data_folders. cbn [In]. split; intuition congruence.
Qed.
Lemma locks_kind : ~ moved_kind "locks".
Proof. unfold moved_kind. intros H. decompose [or] H; discriminate. Qed.
Lemma kind_not_locked df : moved_kind df -> prefix "locked" df = false.
Proof. intros H. unfold moved_kind in H. decompose [or] H; subst; reflexivity. Qed.

(** ** moves *)
Lemma moves_src s p q : moves s p q -> exists sub x rest, p = old_folder sub :: x :: rest.
Proof. intros H. destruct H; eauto. Qed.
Lemma moves_dst s p q : moves s p q -> exists x sub rest, q = new_folder :: x :: sub :: rest /\ (x = "locks"%string -> rest <> []).
Proof.
  intros H. destruct H as [sub df rest K|sub name c P L].
  - exists df, sub, rest. split; [reflexivity|]. intros ->. destruct (locks_kind K).
  - exists "locks"%string, sub, [name]. split; [reflexivity|]. congruence.
Qed.
Lemma moves_inj s p p' q : moves s p q -> moves s p' q -> p = p'.
Proof.
  intros H H'. inversion H; subst; inversion H'; subst; try reflexivity;
    try (exfalso; eapply locks_kind; eassumption); congruence.
Qed.
Lemma moves_fun s p q q' : moves s p q -> moves s p q' -> q = q'.
Proof.
  intros H H'. inversion H; subst; inversion H'; subst.
  - try match goal with E : old_folder _ = old_folder _ |- _ => apply old_inj in E; subst end. reflexivity.
  - match goal with K : moved_kind _, P : prefix _ _ = true |- _ => rewrite (kind_not_locked _ K) in P; congruence end.
  - match goal with K : moved_kind _, P : prefix _ _ = true |- _ => rewrite (kind_not_locked _ K) in P; congruence end.
  - try match goal with E : old_folder _ = old_folder _ |- _ => apply old_inj in E; subst end. reflexivity.
Qed.
Lemma moves_data_inv s sub df rest q : moved_kind df -> moves s (old_folder sub :: df :: rest) q -> q = new_folder :: df :: sub :: rest.
Proof. intros K H. apply (moves_fun s _ _ _ H). constructor. assumption. Qed.
Lemma created_shape s p : created s p -> p = [new_folder] \/ (exists x, p = [new_folder; x]) \/ (exists sub, p = [new_folder; "locks"%string; sub]).
Proof. intros [-> | [(df & _ & ->) | [-> | (sub & _ & ->)]]]; eauto. Qed.
Lemma created_not_dst s p o : created s p -> ~ moves s o p.
Proof.
  intros C M. destruct (moves_dst _ _ _ M) as (x & sub & rest & -> & N).
  destruct (created_shape _ _ C) as [E | [(y & E) | (y & E)]]; try discriminate E.
  injection E as E1 E2 E3. apply N; assumption.
Qed.
Lemma created_not_src s p q : created s p -> ~ moves s p q.
Proof.
  intros C M. destruct (moves_src _ _ _ M) as (sub & x & rest & ->).
  pose proof (old_new sub) as O.
  destruct (created_shape _ _ C) as [E | [(y & E) | (y & E)]]; congruence.
Qed.
Lemma created_uninvolved s p : created s p -> ~ involved s p.
Proof.
  intros C (q & [(M & _) | (M & _)]); [eapply created_not_src; eassumption|eapply created_not_dst; eassumption].
Qed.
Lemma old_not_created s sub rest : ~ created s (old_folder sub :: rest).
Proof.
  intros C. pose proof (old_new sub) as O.
  destruct (created_shape _ _ C) as [E | [(y & E) | (y & E)]]; congruence.
Qed.
Lemma old_not_dst s o sub rest : ~ moves s o (old_folder sub :: rest).
Proof.
  intros M. destruct (moves_dst _ _ _ M) as (x & b & r & E & _). pose proof (old_new sub). congruence.
Qed.

(** ** Between *)
Lemma between_refl s : Between s s.
Proof. split; [|split]; [auto|auto|]. intros p _. left. reflexivity. Qed.
Lemma between_old_dir s t sub : Between s t -> lookup t [old_folder sub] = lookup s [old_folder sub].
Proof.
  intros (_ & _ & K). destruct (K [old_folder sub]) as [E | (C & _)]; [|exact E|destruct (old_not_created _ _ _ C)].
  intros (q & [(M & _) | (M & _)]).
  - destruct (moves_src _ _ _ M) as (a & x & r & E). discriminate E.
  - destruct (old_not_dst _ _ _ _ M).
Qed.
Lemma old_moves_dec s sub rest : (exists q, moves s (old_folder sub :: rest) q) \/ ~ (exists q, moves s (old_folder sub :: rest) q).
Proof.
  destruct rest as [|x rest].
  - right. intros (q & M). destruct (moves_src _ _ _ M) as (a & x & r & E). discriminate E.
  - destruct (in_dec string_dec x data_folders) as [I|N].
    + left. eexists. constructor. apply kind_In. assumption.
    + rewrite <- kind_In in N.
      assert (D : forall q, moves s (old_folder sub :: x :: rest) q ->
        rest = [] /\ prefix "locked" x = true /\ exists c, lookup s [old_folder sub; x] = Some (File c)).
      { intros q M. inversion M; subst; [contradiction|]. 
        try match goal with E : old_folder _ = old_folder _ |- _ => apply old_inj in E; subst end. eauto. }
      destruct rest as [|y rest].
      * destruct (prefix "locked" x) eqn:P.
        -- destruct (lookup s [old_folder sub; x]) as [[|c]|] eqn:L.
           ++ right. intros (q & M). destruct (D _ M) as (_ & _ & c & E). congruence.
           ++ left. eexists. econstructor; eassumption.
           ++ right. intros (q & M). destruct (D _ M) as (_ & _ & c & E). congruence.
        -- right. intros (q & M). destruct (D _ M) as (_ & E & _). congruence.
      * right. intros (q & M). destruct (D _ M) as (E & _). congruence.
Qed.
Lemma old_not_involved s sub rest :
  ~ (exists q, moves s (old_folder sub :: rest) q) \/ lookup s (old_folder sub :: rest) = None ->
  ~ involved s (old_folder sub :: rest).
Proof.
  intros H (q & [(M & L) | (M & _)]); [|destruct (old_not_dst _ _ _ _ M)].
  destruct H as [H | H]; [apply H; eauto|contradiction].
Qed.
Lemma between_kept s t sub rest : Between s t -> ~ involved s (old_folder sub :: rest) ->
  lookup t (old_folder sub :: rest) = lookup s (old_folder sub :: rest).
Proof. intros (_ & _ & K) N. destruct (K _ N) as [E | (C & _)]; [exact E|destruct (old_not_created _ _ _ C)]. Qed.
(** nothing appears among the old results *)
Lemma between_src s t sub rest n : Between s t -> lookup t (old_folder sub :: rest) = Some n -> lookup s (old_folder sub :: rest) = Some n.
Proof.
  intros B L. destruct (old_moves_dec s sub rest) as [(q & M)|N].
  - destruct (lookup s (old_folder sub :: rest)) as [m|] eqn:E.
    + destruct B as (B & _). destruct (B _ _ _ M E) as [(E1 & _) | (E1 & _)]; congruence.
    + rewrite (between_kept s t) in L; [congruence|assumption|]. apply old_not_involved. right. assumption.
  - rewrite (between_kept s t) in L; [assumption|assumption|]. apply old_not_involved. left. assumption.
Qed.
(** what has not moved has found nothing new at its new place *)
Lemma between_dst s t p q : Between s t -> moves s p q -> lookup s p = None -> lookup t q = lookup s q.
Proof.
  intros (_ & _ & K) M L. destruct (K q) as [E | (C & _)]; [|exact E|destruct (created_not_dst _ _ _ C M)].
  intros (o & [(M' & _) | (M' & L')]).
  - destruct (moves_dst _ _ _ M) as (x & b & r & -> & _).
    destruct (moves_src _ _ _ M') as (a & y & r' & E). pose proof (old_new a). congruence.
  - rewrite (moves_inj _ _ _ _ M' M) in L'. contradiction.
Qed.

Lemma data_same s t sub df : Between s t -> moved_kind df ->
  (forall rest, lookup t (old_folder sub :: df :: rest) = lookup s (old_folder sub :: df :: rest)) ->
  forall rest, lookup t (new_folder :: df :: sub :: rest) = lookup s (new_folder :: df :: sub :: rest).
Proof.
  intros B K H rest. assert (M : moves s (old_folder sub :: df :: rest) (new_folder :: df :: sub :: rest)) by (constructor; assumption).
  destruct (lookup s (old_folder sub :: df :: rest)) as [n|] eqn:E; [|eapply between_dst; eassumption].
  destruct (proj1 B _ _ _ M E) as [(_ & E2) | (E2 & _)]; [exact E2|]. rewrite H in E2. congruence.
Qed.

(** ** what rename does *)
Lemma below_skip x p : below x p = true -> x = p ++ skipn (length p) x.
Proof.
  intros B. apply below_spec in B. destruct B as (r & ->).
  rewrite skipn_app, skipn_all, Nat.sub_diag. reflexivity.
Qed.
Lemma occupied_spec s q : occupied s q = true <-> exists x rest, lookup s (q ++ x :: rest) <> None.
Proof.
  unfold occupied. rewrite existsb_exists. split.
  - intros (e & I & H). apply andb_true_iff in H. destruct H as (B & N).
    apply below_spec in B. destruct B as (r & E). destruct r as [|x r].
    + rewrite app_nil_r in E. rewrite E, path_eqb_refl in N. discriminate.
    + exists x, r. apply lookup_In. rewrite <- E. apply in_map. assumption.
  - intros (x & rest & L). apply lookup_In in L. apply in_map_iff in L. destruct L as (e & E & I).
    exists e. split; [assumption|]. rewrite E, below_app. cbn [andb].
    destruct (path_eqb_spec (q ++ x :: rest) q) as [E'|]; [|reflexivity].
    exfalso. rewrite <- (app_nil_r q) in E' at 2. apply app_inv_head in E'. discriminate.
Qed.
Lemma lookup_move s p q x :
  (forall y r, lookup s (q ++ y :: r) = None) -> below q p = false ->
  lookup (move_tree s p q) x =
    if below x q then lookup s (p ++ skipn (length q) x) else if below x p then None else lookup s x.
Proof.
  intros F NB.
  assert (Fe : forall e, In e s -> below (fst e) q = true -> fst e = q).
  { intros e I B. apply below_spec in B. destruct B as (r & E). destruct r as [|y r]; [rewrite app_nil_r in E; assumption|].
    exfalso. apply (proj2 (lookup_In s (q ++ y :: r))); [|apply F]. rewrite <- E. apply in_map. assumption. }
  clear F. unfold move_tree, lookup, remove. induction s as [|(a, n) s IH]; cbn [filter map assoc].
  - destruct (below x q); [reflexivity|]. destruct (below x p); reflexivity.
  - assert (IH' := IH (fun e I => Fe e (or_intror I))). clear IH.
    specialize (Fe _ (or_introl eq_refl)). cbn [fst] in *.
    destruct (path_eqb_spec q a) as [<-|Nq]; cbn [negb map assoc fst snd].
    + rewrite IH'. destruct (below x q) eqn:Bx.
      * destruct (path_eqb_spec (p ++ skipn (length q) x) q) as [E|]; [|reflexivity].
        exfalso. rewrite <- E, below_app in NB. discriminate.
      * destruct (below x p); [reflexivity|].
        destruct (path_eqb_spec x q) as [->|]; [|reflexivity].
        rewrite below_refl in Bx. discriminate.
    + destruct (below a p) eqn:Ba.
      * rewrite IH'. pose proof (below_skip _ _ Ba) as Ea.
        destruct (path_eqb_spec x (q ++ skipn (length p) a)) as [->|Nx].
        -- rewrite below_app.
           rewrite skipn_app, skipn_all, Nat.sub_diag. cbn [skipn List.app].
           rewrite <- Ea, path_eqb_refl. reflexivity.
        -- destruct (below x q) eqn:Bx.
           ++ destruct (path_eqb_spec (p ++ skipn (length q) x) a) as [E|]; [|reflexivity].
              exfalso. apply Nx. rewrite <- E.
              rewrite skipn_app, skipn_all, Nat.sub_diag. cbn [skipn List.app]. apply below_skip. assumption.
           ++ destruct (below x p) eqn:Bxp; [reflexivity|].
              destruct (path_eqb_spec x a) as [->|]; [congruence|reflexivity].
      * rewrite IH'. destruct (path_eqb_spec x a) as [->|Nx].
        -- rewrite Ba. destruct (below a q) eqn:Baq; [|reflexivity]. exfalso. apply Nq. symmetry. apply Fe. reflexivity.
        -- destruct (below x q) eqn:Bx.
           ++ destruct (path_eqb_spec (p ++ skipn (length q) x) a) as [<-|]; [|reflexivity].
              rewrite below_app in Ba. discriminate.
           ++ reflexivity.
Qed.

(** ** one step forward: what happened at the old places stays, and folders stay *)
Definition Fwd (s t t' : fs) : Prop :=
  Between s t' /\
  (forall sub rest, lookup t (old_folder sub :: rest) = None -> lookup t' (old_folder sub :: rest) = None) /\
  (forall p, created s p -> lookup t p = Some Dir -> lookup t' p = Some Dir).
Lemma fwd_refl s t : Between s t -> Fwd s t t.
Proof. intros B. split; [|split]; auto. Qed.
Lemma fwd_trans s a b c : Fwd s a b -> Fwd s b c -> Fwd s a c.
Proof. intros (_ & A1 & A2) (B & B1 & B2). split; [|split]; auto. Qed.

Lemma fwd_mkdir s t p : Between s t -> created s p -> lookup t p = None -> Fwd s t (update t p Dir).
Proof.
  intros B C L.
  assert (L' : forall x, x <> p -> lookup (update t p Dir) x = lookup t x).
  { intros x N. rewrite lookup_update. destruct (path_eqb_spec x p); congruence. }
  assert (O : forall sub rest, old_folder sub :: rest <> p).
  { intros sub rest <-. destruct (old_not_created _ _ _ C). }
  split; [|split].
  - split; [|split].
    + intros a b n M Ls. rewrite (L' a), (L' b).
      * destruct B as (B & _). eapply B; eassumption.
      * intros ->. destruct (created_not_dst _ _ _ C M).
      * intros ->. destruct (created_not_src _ _ _ C M).
    + intros sub df K. destruct B as (_ & B & _). destruct (B sub df K) as [H|(H & W)]; [left|right; split; [|assumption]]; intros rest; rewrite L' by apply O; apply H.
    + intros x N. destruct B as (_ & _ & B). destruct (path_eqb_spec x p) as [->|Nx].
      * rewrite lookup_update, path_eqb_refl. right. split; [assumption|]. split; [|reflexivity].
        destruct (B _ N) as [E | (_ & E & _)]; congruence.
      * rewrite L' by assumption. apply B. assumption.
  - intros sub rest H. rewrite L' by apply O. assumption.
  - intros x _ H. rewrite lookup_update. destruct (path_eqb x p); [reflexivity|assumption].
Qed.

(** moving one folder of results *)
Lemma fwd_data s t sub df : Between s t -> moved_kind df -> lookup t [old_folder sub; df] <> None ->
  (forall y r, lookup t (new_folder :: df :: sub :: y :: r) = None) ->
  (forall c, lookup t [new_folder; df; sub] <> Some (File c)) ->
  Fwd s t (move_tree t [old_folder sub; df] [new_folder; df; sub]).
Proof.
  intros B K Lt F NF. set (t' := move_tree _ _ _).
  assert (Ls : lookup s [old_folder sub; df] <> None).
  { destruct (lookup t [old_folder sub; df]) as [n|] eqn:E; [|congruence]. rewrite (between_src _ _ _ _ _ B E). congruence. }
  assert (At : forall rest, lookup t (old_folder sub :: df :: rest) = lookup s (old_folder sub :: df :: rest)).
  { destruct B as (_ & B & _). destruct (B sub df K) as [H|(H & _)]; [exact H|]. rewrite (H []) in Lt. congruence. }
  assert (W : ~ in_the_way s sub df).
  { intros (_ & _ & [(c & W) | (y & r & W)]); rewrite <- (data_same _ _ _ _ B K At) in W; [exact (NF c W)|]. rewrite F in W. congruence. }
  assert (NB : below [new_folder; df; sub] [old_folder sub; df] = false).
  { destruct (below _ _) eqn:E; [|reflexivity]. apply below_spec in E. destruct E as (r & E).
    pose proof (old_new sub). cbn [List.app] in E. congruence. }
  assert (L : forall x, lookup t' x = if below x [new_folder; df; sub] then lookup t ([old_folder sub; df] ++ skipn 3 x)
                                      else if below x [old_folder sub; df] then None else lookup t x).
  { intros x. apply lookup_move; [|assumption]. intros y r. cbn [List.app]. apply F. }
  assert (Lnew : forall rest, lookup t' (new_folder :: df :: sub :: rest) = lookup s (old_folder sub :: df :: rest)).
  { intros rest. rewrite L. change (new_folder :: df :: sub :: rest) with ([new_folder; df; sub] ++ rest) at 1.
    rewrite below_app. cbn [skipn List.app]. apply At. }
  assert (Lold : forall rest, lookup t' (old_folder sub :: df :: rest) = None).
  { intros rest. rewrite L. destruct (below _ [new_folder; df; sub]) eqn:E.
    - apply below_spec in E. destruct E as (r & E). cbn [List.app] in E. pose proof (old_new sub). congruence.
    - change (old_folder sub :: df :: rest) with ([old_folder sub; df] ++ rest). rewrite below_app. reflexivity. }
  assert (Loth : forall x, (forall rest, x <> new_folder :: df :: sub :: rest) -> (forall rest, x <> old_folder sub :: df :: rest) ->
                 lookup t' x = lookup t x).
  { intros x N1 N2. rewrite L. destruct (below x _) eqn:E.
    - apply below_spec in E. destruct E as (r & E). destruct (N1 r E).
    - clear E. destruct (below x _) eqn:E; [|reflexivity]. apply below_spec in E. destruct E as (r & E). destruct (N2 r E). }
  assert (Oold : forall a x rest, (a = sub /\ x = df) \/ lookup t' (old_folder a :: x :: rest) = lookup t (old_folder a :: x :: rest)).
  { intros a x rest. destruct (string_dec a sub) as [->|Na]; [destruct (string_dec x df) as [->|Nx]|].
    - left. split; reflexivity.
    - right. apply Loth; intros r E; [pose proof (old_new sub)|]; congruence.
    - right. apply Loth; intros r E; [pose proof (old_new a); congruence|].
      assert (old_folder a = old_folder sub) as E' by congruence. apply old_inj in E'. contradiction. }
  split; [split; [|split]|split].
  - intros p q n M Ln.
    destruct (moves_src _ _ _ M) as (a & x & rest & ->).
    destruct (Oold a x rest) as [(-> & ->) | E].
    + right. rewrite (moves_data_inv _ _ _ _ _ K M), Lnew, Lold. auto.
    + rewrite E. destruct (string_dec a sub) as [->|Na]; [destruct (string_dec x df) as [->|Nx]|].
      * right. rewrite (moves_data_inv _ _ _ _ _ K M), Lnew. rewrite <- E. rewrite Lold. auto.
      * assert (Lq : lookup t' q = lookup t q).
        { apply Loth.
          - intros r ->. assert (old_folder sub :: x :: rest = old_folder sub :: df :: r) as E'.
            { eapply moves_inj; [exact M|]. constructor. assumption. } congruence.
          - intros r ->. destruct (old_not_dst _ _ _ _ M). }
        rewrite Lq. destruct B as (B & _). eapply B; eassumption.
      * assert (Lq : lookup t' q = lookup t q).
        { apply Loth.
          - intros r ->. assert (old_folder a :: x :: rest = old_folder sub :: df :: r) as E'.
            { eapply moves_inj; [exact M|]. constructor. assumption. }
            assert (old_folder a = old_folder sub) as E2 by congruence. apply old_inj in E2. contradiction.
          - intros r ->. destruct (old_not_dst _ _ _ _ M). }
        rewrite Lq. destruct B as (B & _). eapply B; eassumption.
  - intros a x Kx. destruct (Oold a x []) as [(-> & ->) | _].
    + right. split; [|assumption]. intros rest. apply Lold.
    + destruct (string_dec a sub) as [->|Na]; [destruct (string_dec x df) as [->|Nx]|].
      * right. split; [exact Lold|assumption].
      * destruct B as (_ & B & _). destruct (B sub x Kx) as [H|(H & Wx)]; [left|right; split; [|assumption]]; intros rest;
          (destruct (Oold sub x rest) as [(_ & ?) | E]; [contradiction|]; rewrite E; apply H).
      * destruct B as (_ & B & _). destruct (B a x Kx) as [H|(H & Wx)]; [left|right; split; [|assumption]]; intros rest;
          (destruct (Oold a x rest) as [(? & _) | E]; [contradiction|]; rewrite E; apply H).
  - intros x N. destruct (below x [new_folder; df; sub]) eqn:B1.
    + apply below_spec in B1. destruct B1 as (rest & ->). cbn [List.app] in *. left. rewrite Lnew.
      destruct (lookup s (old_folder sub :: df :: rest)) as [n|] eqn:E.
      * exfalso. apply N. exists (old_folder sub :: df :: rest). right. split; [constructor; assumption|congruence].
      * destruct rest as [|y r]; [contradiction|].
        rewrite <- (between_dst s t (old_folder sub :: df :: y :: r) (new_folder :: df :: sub :: y :: r) B); [|constructor; assumption|assumption].
        rewrite F. reflexivity.
    + destruct (below x [old_folder sub; df]) eqn:B2.
      * apply below_spec in B2. destruct B2 as (rest & ->). cbn [List.app] in *. left. rewrite Lold.
        destruct (lookup s (old_folder sub :: df :: rest)) as [n|] eqn:E; [|reflexivity].
        exfalso. apply N. eexists. left. split; [constructor; assumption|congruence].
      * rewrite L, B1, B2. destruct B as (_ & _ & B). apply B. assumption.
  - intros a rest H. destruct rest as [|x rest].
    + rewrite Loth; [assumption| |]; intros r E; [|congruence]. pose proof (old_new a). congruence.
    + destruct (Oold a x rest) as [(-> & ->) | E]; [apply Lold|congruence].
  - intros p C H. rewrite Loth; [assumption| |]; intros r ->.
    + apply (created_not_dst _ _ (old_folder sub :: df :: r) C). constructor. assumption.
    + destruct (old_not_created _ _ _ C).
Qed.

(** moving one lock file *)
Lemma fwd_lock s t sub name c : Between s t -> prefix "locked" name = true ->
  lookup t [old_folder sub; name] = Some (File c) ->
  Fwd s t (update (remove t [old_folder sub; name]) [new_folder; "locks"%string; sub; name] (File c)).
Proof.
  intros B P Lt. set (p := [old_folder sub; name]) in *. set (q := [new_folder; "locks"%string; sub; name]).
  set (t' := update _ _ _).
  assert (Ls : lookup s p = Some (File c)) by exact (between_src _ _ _ _ _ B Lt).
  assert (M0 : moves s p q) by (econstructor; eassumption).
  assert (NK : ~ moved_kind name) by (intros K; apply kind_not_locked in K; congruence).
  assert (Npq : p <> q) by (intros E; pose proof (old_new sub); unfold p, q in E; congruence).
  assert (L : forall x, lookup t' x = if path_eqb x q then Some (File c) else if path_eqb x p then None else lookup t x).
  { intros x. unfold t'. rewrite lookup_update, lookup_remove. reflexivity. }
  assert (Lp : lookup t' p = None).
  { rewrite L, path_eqb_refl. destruct (path_eqb_spec p q); congruence. }
  assert (Lq : lookup t' q = Some (File c)) by (rewrite L, path_eqb_refl; reflexivity).
  assert (Loth : forall x, x <> p -> x <> q -> lookup t' x = lookup t x).
  { intros x N1 N2. rewrite L. destruct (path_eqb_spec x q); [congruence|]. destruct (path_eqb_spec x p); congruence. }
  assert (Oq : forall a rest, old_folder a :: rest <> q).
  { intros a rest E. pose proof (old_new a). unfold q in E. congruence. }
  split; [split; [|split]|split].
  - intros a b n M Ln. destruct (path_eqb_spec a p) as [->|Na].
    + right. rewrite (moves_fun _ _ _ _ M M0), Lp, Lq. split; congruence.
    + rewrite (Loth a), (Loth b).
      * destruct B as (B & _). eapply B; eassumption.
      * intros ->. destruct (moves_src _ _ _ M0) as (? & ? & ? & E). unfold p in M. destruct (old_not_dst _ _ _ _ M).
      * intros ->. apply Na. eapply moves_inj; eassumption.
      * assumption.
      * destruct (moves_src _ _ _ M) as (? & ? & ? & ->). apply Oq.
  - intros a x K. destruct B as (_ & B & _).
    destruct (B a x K) as [H|(H & Wx)]; [left|right; split; [|assumption]]; intros rest; (rewrite Loth; [apply H| |apply Oq]);
      unfold p; intros E; apply NK; congruence.
  - intros x N. rewrite Loth; [destruct B as (_ & _ & B); apply B; assumption| |]; intros ->; apply N.
    + exists q. left. split; [assumption|congruence].
    + exists p. right. split; [assumption|congruence].
  - intros a rest H. destruct (path_eqb_spec (old_folder a :: rest) p) as [E|Na]; [rewrite E; assumption|].
    rewrite Loth; [assumption|assumption|apply Oq].
  - intros x C H. rewrite Loth; [assumption| |]; intros ->.
    + unfold p in C. destruct (old_not_created _ _ _ C).
    + destruct (created_not_dst _ _ _ C M0).
Qed.

(** ** the script *)
Definition stopped (s : fs) (e : pyerr) : Prop := e = OSErr /\ exists sub df, in_the_way s sub df.
(** running m from t leaves at every moment a state between, and ends well in F or is stopped *)
Definition safe (s : fs) (m : mprog) (t : fs) (F : fs -> Prop) : Prop :=
  (forall u, In u (mstates t m) -> Between s u) /\
  match snd (mexec t m) with None => F (fst (mexec t m)) | Some e => stopped s e end /\
  Between s (fst (mexec t m)).

Lemma safe_ret s t (F : fs -> Prop) : Between s t -> F t -> safe s MRet t F.
Proof.
  intros B H. split; [|split]; [|exact H|exact B]. cbn [mstates]. intros u [<- | []]. assumption.
Qed.
Lemma safe_read s k t F : Between s t -> safe s (k t) t F -> safe s (MRead k) t F.
Proof.
  intros B (S1 & S2). split; [|exact S2]. cbn [mstates]. intros u [<- | I]; auto.
Qed.
(** no old result is touched *)
Definition olds_same (t t' : fs) : Prop := forall sub rest, lookup t' (old_folder sub :: rest) = lookup t (old_folder sub :: rest).
Lemma olds_same_trans a b c : olds_same a b -> olds_same b c -> olds_same a c.
Proof. intros H1 H2 sub rest. rewrite H2. apply H1. Qed.
Lemma safe_mkdir s k t F p : Old_layout s -> Between s t -> created s p -> is_dir t (parent p) = true ->
  (forall t', Fwd s t t' -> olds_same t t' -> lookup t' p = Some Dir -> safe s k t' F) -> safe s (MMkdir p k) t F.
Proof.
  intros OL B C D H.
  assert (Np : p <> []) by (intros ->; destruct (created_shape _ _ C) as [E | [(y & E) | (y & E)]]; discriminate E).
  assert (E : exists t', do_mkdir t p = (t', true) /\ Fwd s t t' /\ olds_same t t' /\ lookup t' p = Some Dir).
  { unfold do_mkdir, is_dir at 1, exists_. destruct p as [|x p0] eqn:Ep; [congruence|]. rewrite <- Ep in *.
    destruct (lookup t p) as [[|c]|] eqn:L.
    - exists t. split; [reflexivity|]. split; [apply fwd_refl; assumption|]. split; [intros sub rest; reflexivity|assumption].
    - exfalso. destruct B as (_ & _ & B). destruct (B p (created_uninvolved _ _ C)) as [E | (_ & _ & E)]; [|congruence].
      eapply ol_new; [exact OL|exact C|]. rewrite <- E. exact L.
    - rewrite D. exists (update t p Dir). split; [reflexivity|].
      split; [apply fwd_mkdir; assumption|]. split.
      { intros sub rest. rewrite lookup_update. destruct (path_eqb_spec (old_folder sub :: rest) p) as [E|]; [|reflexivity].
        rewrite <- E in C. destruct (old_not_created _ _ _ C). }
      rewrite lookup_update, path_eqb_refl. reflexivity. }
  destruct E as (t' & E & Fw & Os & L). destruct (H t' Fw Os L) as (S1 & S2).
  split; [|cbn [mexec]; rewrite E; exact S2].
  cbn [mstates]. rewrite E. intros u [<- | I]; auto.
Qed.
Lemma created_root s : created s [new_folder].
Proof. left. reflexivity. Qed.
Lemma dir_of t x p : lookup t (x :: p) = Some Dir -> is_dir t (x :: p) = true.
Proof. intros H. unfold is_dir. rewrite H. reflexivity. Qed.
Lemma safe_mkdirs2 s k t F x : Old_layout s -> Between s t -> created s [new_folder; x] ->
  (forall t', Fwd s t t' -> olds_same t t' -> lookup t' [new_folder; x] = Some Dir -> safe s k t' F) ->
  safe s (mmkdirs [new_folder; x] k) t F.
Proof.
  intros OL B C H. unfold mmkdirs. cbn [prefixes map fold_right].
  apply safe_mkdir; [assumption|assumption|apply created_root|reflexivity|].
  intros t1 F1 O1 L1. apply safe_mkdir; [assumption|apply F1|assumption|apply dir_of; assumption|].
  intros t2 F2 O2 L2. apply H; [eapply fwd_trans; eassumption|eapply olds_same_trans; eassumption|assumption].
Qed.
Lemma safe_mkdirs3 s k t F sub : Old_layout s -> Between s t -> created s [new_folder; "locks"%string; sub] ->
  (forall t', Fwd s t t' -> olds_same t t' -> lookup t' [new_folder; "locks"%string; sub] = Some Dir -> safe s k t' F) ->
  safe s (mmkdirs [new_folder; "locks"%string; sub] k) t F.
Proof.
  intros OL B C H. unfold mmkdirs. cbn [prefixes map fold_right].
  apply safe_mkdir; [assumption|assumption|apply created_root|reflexivity|].
  intros t1 F1 O1 L1. apply safe_mkdir; [assumption|apply F1|right; right; left; reflexivity|apply dir_of; assumption|].
  intros t2 F2 O2 L2. apply safe_mkdir; [assumption|apply F2|assumption|apply dir_of; assumption|].
  intros t3 F3 O3 L3. apply H; [| |assumption].
  - eapply fwd_trans; [eassumption|]. eapply fwd_trans; eassumption.
  - eapply olds_same_trans; [eassumption|]. eapply olds_same_trans; eassumption.
Qed.

Lemma safe_data s sub F k : Old_layout s -> forall dfs t, Between s t -> (forall df, In df dfs -> moved_kind df) ->
  (forall df, In df dfs -> lookup t [new_folder; df] = Some Dir) ->
  (forall t', Fwd s t t' -> (forall df, In df dfs -> lookup t' [old_folder sub; df] = None) -> safe s k t' F) ->
  safe s (move_data (old_folder sub) dfs k) t F.
Proof.
  intros OL. induction dfs as [|df dfs IH]; intros t B K D H; cbn [move_data].
  - apply H; [apply fwd_refl; assumption|intros df []].
  - rewrite new_name_old. change experiment_name with new_folder. set (p := [old_folder sub; df]). set (q := [new_folder; df; sub]).
    assert (Kd : moved_kind df) by (apply K; left; reflexivity).
    assert (Go : forall t', Fwd s t t' -> lookup t' p = None -> safe s (move_data (old_folder sub) dfs k) t' F).
    { intros t' Fw L. apply IH.
      - apply Fw.
      - intros x I. apply K. right. assumption.
      - intros x I. apply Fw; [|apply D; right; assumption]. right. left. exists x. split; [apply K; right; assumption|reflexivity].
      - intros t2 F2 L2. apply H; [eapply fwd_trans; eassumption|].
        intros x [<- | I]; [apply F2; exact L|apply L2; assumption]. }
    assert (E : (exists t' r, do_rename t p q = (t', r) /\ r <> RFailed /\ Fwd s t t' /\ lookup t' p = None) \/
                (do_rename t p q = (t, RFailed) /\ in_the_way s sub df)).
    { unfold do_rename. destruct (lookup t p) as [n|] eqn:L.
      2:{ left. exists t, RMissing. split; [reflexivity|]. split; [discriminate|]. split; [apply fwd_refl; assumption|assumption]. }
      assert (Ls : lookup s p = Some n) by exact (between_src _ _ _ _ _ B L).
      assert (n = Dir) as ->.
      { destruct n as [|c]; [reflexivity|]. destruct (ol_data _ OL sub df c Kd Ls). }
      assert (Dq : is_dir t (parent q) = true) by (apply dir_of; apply D; left; reflexivity). 
      rewrite Dq. cbn [negb].
      destruct (path_eqb_spec p q) as [Epq|_]; [exfalso; unfold p, q in Epq; congruence|].
      destruct (below q p) eqn:Bqp.
      { exfalso. apply below_spec in Bqp. destruct Bqp as (r & E). unfold p, q in E. cbn [List.app] in E. pose proof (old_new sub). congruence. }
      assert (Aq : lookup t q = lookup s q).
      { destruct B as (B1 & _). destruct (B1 p q Dir) as [(_ & E) | (E & _)]; [constructor; assumption|assumption|exact E|congruence]. }
      assert (At : forall rest, lookup t (new_folder :: df :: sub :: rest) = lookup s (new_folder :: df :: sub :: rest)).
      { intros rest. assert (M : moves s (old_folder sub :: df :: rest) (new_folder :: df :: sub :: rest)) by (constructor; assumption).
        destruct (lookup s (old_folder sub :: df :: rest)) as [m|] eqn:Em; [|eapply between_dst; eassumption].
        destruct B as (B1 & B2 & _). destruct (B1 _ _ _ M Em) as [(_ & E) | (E & _)]; [exact E|]. exfalso.
        destruct (B2 sub df Kd) as [HH|(HH & _)]; [rewrite HH in E; congruence|]. specialize (HH []). fold p in HH. congruence. }
      destruct (occupied t q) eqn:Oc.
      - right. apply occupied_spec in Oc. destruct Oc as (x & rest & Lx). cbn [q List.app] in Lx.
        assert (W : in_the_way s sub df).
        { split; [assumption|]. split; [fold p; congruence|]. right. exists x, rest. rewrite <- At. exact Lx. }
        rewrite At in Lx. rewrite (ol_target _ OL df sub x rest Kd Lx : lookup s q = Some Dir) in Aq. rewrite Aq. split; [reflexivity|exact W].
      - assert (Fr : forall y r, lookup t (new_folder :: df :: sub :: y :: r) = None).
        { intros y r. destruct (lookup t (new_folder :: df :: sub :: y :: r)) eqn:Ey; [|reflexivity].
          exfalso. assert (occupied t q = true) as E; [|congruence]. apply occupied_spec. exists y, r. cbn [q List.app]. congruence. }
        assert (Gone : lookup (move_tree t p q) p = None).
        { rewrite lookup_move; [|exact Fr|assumption]. rewrite below_refl.
          destruct (below p q) eqn:E; [|reflexivity]. exfalso. apply below_spec in E. destruct E as (r & E).
          unfold p, q in E. cbn [List.app] in E. pose proof (old_new sub). congruence. }
        assert (Fw : (forall c, lookup t q <> Some (File c)) -> Fwd s t (move_tree t p q)).
        { intros NF. apply fwd_data; [assumption|assumption| |assumption|assumption]. fold p. congruence. }
        destruct (lookup t q) as [[|c]|] eqn:Lq.
        + left. exists (move_tree t p q), RDone. split; [reflexivity|]. split; [discriminate|]. split; [apply Fw; congruence|assumption].
        + right. split; [reflexivity|]. split; [assumption|]. split; [fold p; congruence|]. left. exists c. fold q. congruence.
        + left. exists (move_tree t p q), RDone. split; [reflexivity|]. split; [discriminate|]. split; [apply Fw; congruence|assumption]. }
    destruct E as [(t' & r & E & Nr & Fw & L) | (E & W)].
    + destruct (Go t' Fw L) as (S1 & S2).
      split; [cbn [mstates]|cbn [mexec]]; rewrite E; (destruct r; [| |congruence]); [| |exact S2|exact S2];
        (intros u [<- | I]; [assumption|apply S1; assumption]).
    + split; [cbn [mstates]|cbn [mexec]]; rewrite E; cbn [mstates mexec fst snd].
      * intros u [<- | [<- | []]]; assumption.
      * split; [|assumption]. split; [reflexivity|]. exists sub, df. assumption.
Qed.

Lemma is_file_spec t p : is_file t p = true <-> exists c, lookup t p = Some (File c).
Proof.
  unfold is_file. destruct (lookup t p) as [[|c]|]; split; try discriminate; try (intros (c' & E); discriminate E); eauto.
Qed.
(** the lock files named in l have gone *)
Definition locks_gone (sub : string) (l : list string) (t : fs) : Prop :=
  forall name c, In name l -> prefix "locked" name = true -> lookup t [old_folder sub; name] <> Some (File c).

Lemma safe_locks s sub F k : Old_layout s -> forall names t, Between s t ->
  (forall t', Fwd s t t' -> locks_gone sub names t' -> safe s k t' F) ->
  safe s (move_locks (old_folder sub) names k) t F.
Proof.
  intros OL. induction names as [|name names IH]; intros t B H; cbn [move_locks].
  - apply H; [apply fwd_refl; assumption|intros n c []].
  - apply safe_read; [assumption|].
    assert (Go : forall t', Fwd s t t' -> (forall c, prefix "locked" name = true -> lookup t' [old_folder sub; name] <> Some (File c)) ->
                 safe s (move_locks (old_folder sub) names k) t' F).
    { intros t' Fw L. apply IH; [apply Fw|]. intros t2 F2 L2. apply H; [eapply fwd_trans; eassumption|].
      intros n c [<- | I] P; [|apply L2; assumption].
      intros E. apply (L c P). apply (fun b => b) in E.
      destruct (lookup t' [old_folder sub; name]) as [m|] eqn:Em.
      - pose proof (between_src _ _ _ _ _ (proj1 Fw) Em) as E1. pose proof (between_src _ _ _ _ _ (proj1 F2) E) as E2. congruence.
      - destruct F2 as (_ & F2 & _). rewrite (F2 _ _ Em) in E. discriminate. }
    destruct (is_file t [old_folder sub; name]) eqn:Fi; cbn [negb].
    2:{ apply Go; [apply fwd_refl; assumption|]. intros c _ E. 
        assert (is_file t [old_folder sub; name] = true) by (apply is_file_spec; eauto). congruence. }
    destruct (prefix "locked" name) eqn:P; cbn [negb].
    2:{ apply Go; [apply fwd_refl; assumption|]. intros c E. discriminate E. }
    apply is_file_spec in Fi. destruct Fi as (c & Lt).
    assert (Ls : lookup s [old_folder sub; name] = Some (File c)) by exact (between_src _ _ _ _ _ B Lt).
    rewrite new_name_old. change experiment_name with new_folder.
    apply safe_mkdirs3; [assumption|assumption| |].
    { right. right. right. exists sub. split; [|reflexivity]. apply (ol_parent _ OL sub name []). congruence. }
    intros t1 F1 O1 L1. pose proof (proj1 F1) as B1.
    assert (M : moves s [old_folder sub; name] [new_folder; "locks"%string; sub; name]) by (econstructor; eassumption).
    assert (Lt1 : lookup t1 [old_folder sub; name] = Some (File c)) by (rewrite O1; exact Lt).
    assert (Lq : lookup t1 [new_folder; "locks"%string; sub; name] = None).
    { destruct (proj1 B1 _ _ _ M Ls) as [(_ & E) | (E & _)]; [|congruence].
      rewrite E. eapply ol_lock; eassumption. }
    set (t2 := update (remove t1 [old_folder sub; name]) [new_folder; "locks"%string; sub; name] (File c)).
    assert (F2 : Fwd s t1 t2) by (apply fwd_lock; assumption).
    assert (E : do_rename t1 [old_folder sub; name] [new_folder; "locks"%string; sub; name] = (t2, RDone)).
    { unfold do_rename. rewrite Lt1, Lq.
      change (parent [new_folder; "locks"%string; sub; name]) with [new_folder; "locks"%string; sub].
      rewrite (dir_of _ _ _ L1). cbn [negb].
      destruct (path_eqb_spec [old_folder sub; name] [new_folder; "locks"%string; sub; name]) as [E|_]; [congruence|].
      destruct (below _ _) eqn:Bq; [|reflexivity]. exfalso. apply below_spec in Bq. destruct Bq as (r & E).
      pose proof (old_new sub). cbn [List.app] in E. congruence. }
    assert (S2 : safe s (move_locks (old_folder sub) names k) t2 F).
    { apply Go; [eapply fwd_trans; eassumption|]. intros c' _. unfold t2. rewrite lookup_update, lookup_remove, path_eqb_refl.
      destruct (path_eqb_spec [old_folder sub; name] [new_folder; "locks"%string; sub; name]) as [E2|_]; congruence. }
    destruct S2 as (S1 & S2).
    split; [cbn [mstates]; rewrite E; intros u [<- | I]; [assumption|apply S1; assumption]|].
    cbn [mexec]. rewrite E. exact S2.
Qed.

Lemma in_listing t p name : In name (listing t p) <-> lookup t (p ++ [name]) <> None.
Proof.
  unfold listing. rewrite nodup_In, names_in_spec. split; [tauto|]. intros H. split; [assumption|]. destruct name; reflexivity.
Qed.
Lemma safe_subexp_locks s sub F k t : Old_layout s -> Between s t ->
  (forall t', Fwd s t t' -> (forall name, locks_gone sub [name] t') -> safe s k t' F) ->
  safe s (move_subexp_locks (old_folder sub) k) t F.
Proof.
  intros OL B H. unfold move_subexp_locks. change experiment_name with new_folder.
  apply safe_mkdirs2; [assumption|assumption|right; right; left; reflexivity|].
  intros t1 F1 O1 L1. apply safe_read; [apply F1|]. apply safe_locks; [assumption|apply F1|].
  intros t2 F2 G. apply H; [eapply fwd_trans; eassumption|].
  intros name n c [<- | []] P E. apply (G name c); [|assumption|assumption].
  apply in_listing. cbn [List.app]. intros E1. destruct F2 as (_ & F2 & _). rewrite (F2 _ _ E1) in E. discriminate.
Qed.

(** nothing of the sub-experiment is left at its old place *)
Definition sub_gone (s : fs) (sub : string) (t : fs) : Prop :=
  forall p q, moves s (old_folder sub :: p) q -> lookup t (old_folder sub :: p) = None.
Lemma sub_gone_fwd s sub t t' : sub_gone s sub t -> Fwd s t t' -> sub_gone s sub t'.
Proof. intros G (_ & F & _) p q M. apply F. eapply G. eassumption. Qed.
Lemma between_gone s t sub df : Between s t -> moved_kind df -> lookup t [old_folder sub; df] = None ->
  (forall rest, lookup s (old_folder sub :: df :: rest) <> None -> lookup s [old_folder sub; df] <> None) ->
  forall rest, lookup t (old_folder sub :: df :: rest) = None.
Proof.
  intros (B1 & B2 & _) K L W rest. destruct (B2 sub df K) as [H|(H & _)]; [|apply H].
  rewrite H. destruct (lookup s (old_folder sub :: df :: rest)) eqn:E; [|reflexivity].
  exfalso. apply (W rest); [congruence|]. rewrite <- H. exact L.
Qed.

Lemma safe_all s (F : fs -> Prop) : Old_layout s -> forall names t, Between s t ->
  (forall df, moved_kind df -> lookup t [new_folder; df] = Some Dir) ->
  (forall t', Fwd s t t' -> (forall sub, In (old_folder sub) names -> lookup s [old_folder sub] = Some Dir -> sub_gone s sub t') -> F t') ->
  safe s (move_all names) t F.
Proof.
  intros OL. induction names as [|name names IH]; intros t B D H; cbn [move_all].
  - apply safe_ret; [assumption|]. apply H; [apply fwd_refl; assumption|]. intros sub [].
  - apply safe_read; [assumption|].
    assert (Go : forall t', Fwd s t t' -> (forall sub, name = old_folder sub -> lookup s [old_folder sub] = Some Dir -> sub_gone s sub t') ->
                 safe s (move_all names) t' F).
    { intros t' Fw G. apply IH; [apply Fw| |].
      - intros df K. apply Fw; [right; left; exists df; split; [assumption|reflexivity]|apply D; assumption].
      - intros t2 F2 G2. apply H; [eapply fwd_trans; eassumption|].
        intros sub [E | I] Ls; [|apply G2; assumption]. eapply sub_gone_fwd; [|exact F2]. apply G; assumption. }
    destruct (is_dir t [name]) eqn:Di; cbn [negb].
    2:{ apply Go; [apply fwd_refl; assumption|]. intros sub -> Ls.
        rewrite <- (between_old_dir _ _ _ B) in Ls. rewrite (dir_of _ _ _ Ls) in Di. discriminate. }
    destruct (prefix old_prefix name) eqn:P; cbn [negb].
    2:{ apply Go; [apply fwd_refl; assumption|]. intros sub -> _.
        assert (prefix old_prefix (old_folder sub) = true) by (apply old_prefix_spec; eauto). congruence. }
    apply old_prefix_spec in P. destruct P as (sub & ->).
    apply safe_data; [assumption|assumption|intros df I; apply kind_In; assumption|intros df I; apply D; apply kind_In; assumption|].
    intros t1 F1 G1. apply safe_subexp_locks; [assumption|apply F1|].
    intros t2 F2 G2. apply Go; [eapply fwd_trans; eassumption|].
    intros sub' E _. apply old_inj in E. subst sub'. intros p q M.
    destruct (moves_src _ _ _ M) as (a & x & r & E). assert (p = x :: r) as -> by congruence. clear E a.
    destruct (lookup t2 (old_folder sub :: x :: r)) as [n|] eqn:L2; [|reflexivity]. exfalso.
    pose proof (between_src _ _ _ _ _ (proj1 F2) L2) as L2s.
    destruct (in_dec string_dec x data_folders) as [Ix|Nx].
    + pose proof (G1 x Ix) as L1. apply kind_In in Ix.
      assert (lookup t1 (old_folder sub :: x :: r) = None) as E.
      { eapply between_gone; [apply F1|assumption|exact L1|]. intros rest. apply (ol_inside _ OL); assumption. }
      destruct F2 as (_ & F2 & _). rewrite (F2 _ _ E) in L2. discriminate.
    + inversion M; subst; [apply Nx, kind_In; assumption|].
      eapply (G2 x); [left; reflexivity|eassumption|].
      rewrite L2. match goal with L : lookup s [old_folder _; x] = Some (File ?c), E : old_folder _ = old_folder _ |- _ => apply old_inj in E; subst; rewrite L in L2s; congruence
      | L : lookup s [old_folder _; x] = Some (File ?c) |- _ => rewrite L in L2s; symmetry; exact L2s end.
Qed.

(** everything gone from the old places: everything has moved *)
Lemma between_moved s t : Between s t -> (forall p q, moves s p q -> lookup t p = None) -> Moved s t.
Proof.
  intros (B1 & _ & B3) G. split; [|assumption]. intros p q n M L.
  destruct (B1 p q n M L) as [(E & _) | E]; [|exact E]. rewrite (G _ _ M) in E. discriminate.
Qed.

Lemma safe_structure s k t F : Old_layout s -> forall dfs, Between s t -> (forall df, In df dfs -> moved_kind df) ->
  (forall t', Fwd s t t' -> (forall df, In df dfs -> lookup t' [new_folder; df] = Some Dir) -> safe s k t' F) ->
  safe s (fold_right (fun df => mmkdirs [new_folder; df]) k dfs) t F.
Proof.
  intros OL dfs. revert t. induction dfs as [|df dfs IH]; intros t B K H; cbn [fold_right].
  - apply H; [apply fwd_refl; assumption|intros df []].
  - assert (C : created s [new_folder; df]) by (right; left; exists df; split; [apply K; left; reflexivity|reflexivity]).
    apply safe_mkdirs2; [assumption|assumption|assumption|].
    intros t1 F1 _ L1. apply IH; [apply F1|intros x I; apply K; right; assumption|].
    intros t2 F2 L2. apply H; [eapply fwd_trans; eassumption|].
    intros x [<- | I]; [|apply L2; assumption]. destruct F2 as (_ & _ & F2). apply F2; assumption.
Qed.

Lemma safe_restructure s : Old_layout s -> safe s restructure s (Moved s).
Proof.
  intros OL. unfold restructure, create_structure, mmkdirs at 1. cbn [prefixes map fold_right].
  change experiment_name with new_folder.
  apply safe_mkdir; [assumption|apply between_refl|apply created_root|reflexivity|].
  intros t1 F1 _ L1. apply safe_structure; [assumption|apply F1|intros df; apply kind_In|].
  intros t2 F2 L2. apply safe_read; [apply F2|].
  apply safe_all; [assumption|apply F2| |].
  - intros df K. apply L2. apply kind_In. assumption.
  - intros t3 F3 G. apply between_moved; [apply F3|].
    intros p q M. destruct (moves_src _ _ _ M) as (sub & x & r & ->).
    destruct (lookup s (old_folder sub :: x :: r)) as [n|] eqn:Ls.
    + assert (D : lookup s [old_folder sub] = Some Dir) by (apply (ol_parent _ OL sub x r); congruence).
      refine (G sub _ D (x :: r) q M).
      apply in_listing. cbn [List.app]. rewrite (between_old_dir s t2) by apply F2. congruence.
    + destruct (lookup t3 (old_folder sub :: x :: r)) as [n|] eqn:L3; [|reflexivity].
      rewrite (between_src _ _ _ _ _ (proj1 F3) L3) in Ls. discriminate.
Qed.

(** ** starting again *)
Lemma created_between s t p : Between s t -> created t p <-> created s p.
Proof.
  intros B. unfold created. split; (intros [H | [H | [H | (sub & L & H)]]]; [tauto|tauto|tauto|]);
    right; right; right; exists sub; (split; [|assumption]).
  - rewrite <- (between_old_dir _ _ _ B). assumption.
  - rewrite (between_old_dir _ _ _ B). assumption.
Qed.
Lemma layout_between s t : Old_layout s -> Between s t -> Old_layout t.
Proof.
  intros OL B.
  assert (Sr : forall sub rest, lookup t (old_folder sub :: rest) <> None -> lookup s (old_folder sub :: rest) <> None).
  { intros sub rest H. destruct (lookup t (old_folder sub :: rest)) as [n|] eqn:E; [|congruence].
    rewrite (between_src _ _ _ _ _ B E). congruence. }
  constructor.
  - intros sub x rest H. rewrite (between_old_dir _ _ _ B). eapply ol_parent; [exact OL|]. apply Sr. eassumption.
  - intros sub df rest K H. destruct (proj1 (proj2 B) sub df K) as [A|(A & _)]; [|rewrite A in H; congruence].
    rewrite A in H |- *. eapply ol_inside; eassumption.
  - intros df sub x rest K H. destruct (proj1 (proj2 B) sub df K) as [A|(A & _)].
    + rewrite (data_same _ _ _ _ B K A) in H. rewrite (data_same _ _ _ _ B K A). eapply ol_target; eassumption.
    + assert (T : lookup s [old_folder sub; df] <> None -> lookup t [new_folder; df; sub] = Some Dir).
      { intros N. destruct (lookup s [old_folder sub; df]) as [n|] eqn:E; [|congruence].
        destruct n as [|c]; [|destruct (ol_data _ OL sub df c K E)].
        destruct (proj1 B [old_folder sub; df] [new_folder; df; sub] Dir) as [(E2 & _) | (_ & E2)];
          [constructor; assumption|assumption|rewrite A in E2; discriminate|exact E2]. }
      destruct (lookup s [old_folder sub; df]) as [n|] eqn:E1; [apply T; congruence|].
      assert (E : lookup s (old_folder sub :: df :: x :: rest) = None).
      { destruct (lookup s (old_folder sub :: df :: x :: rest)) eqn:E; [|reflexivity].
        exfalso. apply (ol_inside _ OL sub df (x :: rest) K); congruence. }
      rewrite (between_dst s t (old_folder sub :: df :: x :: rest)) in H by (assumption || (constructor; assumption)).
      rewrite (between_dst s t [old_folder sub; df]) by (assumption || (constructor; assumption)).
      eapply ol_target; eassumption.
  - rewrite (between_old_dir _ _ _ B). apply ol_named. assumption.
  - intros sub df c K H. eapply ol_data; [exact OL|exact K|]. eapply between_src; eassumption.
  - intros p c C H. apply (created_between _ _ _ B) in C.
    destruct (proj2 (proj2 B) p (created_uninvolved _ _ C)) as [E | (_ & _ & E)]; [|congruence].
    eapply ol_new; [exact OL|exact C|]. rewrite <- E. exact H.
  - intros sub name c P H. pose proof (between_src _ _ _ _ _ B H) as Hs.
    assert (M : moves s [old_folder sub; name] [new_folder; "locks"%string; sub; name]) by (econstructor; eassumption).
    destruct (proj1 B _ _ _ M Hs) as [(_ & E) | (E & _)]; [|congruence].
    rewrite E. eapply ol_lock; eassumption.
Qed.
Lemma in_the_way_between s t sub df : Between s t -> in_the_way t sub df -> in_the_way s sub df.
Proof.
  intros B (K & N & W). destruct (proj1 (proj2 B) sub df K) as [A|(A & _)]; [|rewrite A in N; congruence].
  split; [assumption|]. rewrite A in N. split; [assumption|].
  destruct W as [(c & W) | (x & rest & W)]; rewrite (data_same _ _ _ _ B K A) in W; [left|right]; eauto.
Qed.
Lemma moves_between s t p q n : Between s t -> moves s p q -> lookup s p = Some n -> lookup t p = Some n -> moves t p q.
Proof.
  intros B M Ls L. inversion M; subst; [constructor; assumption|]. econstructor; [assumption|]. rewrite L, <- Ls; eassumption.
Qed.
Lemma moves_back s t p q : Between s t -> moves t p q -> moves s p q.
Proof.
  intros B M. inversion M; subst; [constructor; assumption|]. econstructor; [assumption|]. eapply between_src; eassumption.
Qed.
Lemma moved_compose s t u : Between s t -> Moved t u -> Moved s u.
Proof.
  intros B (H1 & H2). split.
  - intros p q n M Ls. destruct (proj1 B p q n M Ls) as [(Lt & Lq) | (Lt & Lq)].
    + apply (H1 p q n); [eapply moves_between; eassumption|assumption].
    + assert (Np : ~ involved t p).
      { intros (o & [(M' & L') | (M' & L')]); [congruence|]. destruct (moves_src _ _ _ M) as (? & ? & ? & ->). destruct (old_not_dst _ _ _ _ M'). }
      assert (Nq : ~ involved t q).
      { intros (o & [(M' & L') | (M' & L')]).
        - destruct (moves_src _ _ _ M') as (? & ? & ? & ->). destruct (old_not_dst _ _ _ _ M).
        - apply (moves_back _ _ _ _ B) in M'. rewrite (moves_inj _ _ _ _ M' M) in L'. congruence. }
      split.
      * destruct (H2 p Np) as [E | (C & _)]; [congruence|]. exfalso. apply (created_between _ _ _ B) in C. eapply created_not_src; eassumption.
      * destruct (H2 q Nq) as [E | (C & _)]; [congruence|]. exfalso. apply (created_between _ _ _ B) in C. eapply created_not_dst; eassumption.
  - intros p N. 
    assert (Nt : ~ involved t p).
    { intros (o & [(M & L) | (M & L)]); apply N; exists o; [left|right]; (split; [eapply moves_back; eassumption|]).
      - destruct (moves_src _ _ _ M) as (? & ? & ? & ->).
        destruct (lookup t (old_folder x :: x0 :: x1)) as [n|] eqn:E; [|congruence]. rewrite (between_src _ _ _ _ _ B E). congruence.
      - destruct (moves_src _ _ _ M) as (? & ? & ? & ->).
        destruct (lookup t (old_folder x :: x0 :: x1)) as [n|] eqn:E; [|congruence]. rewrite (between_src _ _ _ _ _ B E). congruence. }
    destruct (proj2 (proj2 B) p N) as [E | (C & E1 & E2)]; destruct (H2 p Nt) as [E' | (C' & E1' & E2')].
    + left. congruence.
    + right. apply (created_between _ _ _ B) in C'. split; [assumption|]. split; congruence.
    + right. split; [assumption|]. split; congruence.
    + right. split; [assumption|]. split; congruence.
Qed.

(** ** a file where a folder of the new layout should be *)
Definition grown (s t : fs) : Prop := forall p, lookup t p = lookup s p \/ (lookup s p = None /\ lookup t p = Some Dir).
Lemma grown_trans a b c : grown a b -> grown b c -> grown a c.
Proof.
  intros H1 H2 p. destruct (H1 p) as [E1 | (E1 & E2)], (H2 p) as [E3 | (E3 & E4)]; [left|right|right|right]; try split; congruence.
Qed.
Lemma grown_mkdir s p : grown s (fst (do_mkdir s p)).
Proof.
  unfold do_mkdir. destruct (is_dir s p); [intros q; left; reflexivity|].
  destruct (exists_ s p) eqn:E; [intros q; left; reflexivity|].
  destruct (is_dir s (parent p)); [|intros q; left; reflexivity].
  intros q. cbn [fst]. rewrite lookup_update. destruct (path_eqb_spec q p) as [->|]; [|left; reflexivity].
  right. split; [|reflexivity]. unfold exists_ in E. destruct p; [discriminate|]. destruct (lookup s (s0 :: p)); [discriminate|reflexivity].
Qed.
Lemma mkdirs_stop k : forall ps s, Forall (fun p => p <> []) ps -> (exists p c, In p ps /\ lookup s p = Some (File c)) ->
  snd (mexec s (fold_right MMkdir k ps)) = Some OSErr /\ grown s (fst (mexec s (fold_right MMkdir k ps))).
Proof.
  induction ps as [|p ps IH]; intros s NE (q & c & I & L); [destruct I|]. cbn [fold_right mexec].
  inversion NE as [|? ? Np NE']; subst. pose proof (grown_mkdir s p) as G.
  destruct (do_mkdir s p) as (s', b) eqn:E. cbn [fst] in G. destruct b; [|split; [reflexivity|exact G]].
  assert (Nq : p <> q).
  { intros ->. unfold do_mkdir, is_dir at 1, exists_ in E. destruct q; [congruence|]. rewrite L in E. congruence. }
  destruct (IH s' NE') as (R & G').
  - exists q, c. split; [destruct I as [?|I]; [contradiction|exact I]|]. destruct (G q) as [E2 | (E2 & _)]; congruence.
  - split; [exact R|]. eapply grown_trans; eassumption.
Qed.
Lemma create_structure_flat k : create_structure k =
  fold_right MMkdir k (prefixes [experiment_name] ++ flat_map (fun df => prefixes [experiment_name; df]) data_folders).
Proof. reflexivity. Qed.
